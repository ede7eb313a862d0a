(** Fetching single blocks: proofs. *)
From Verif Require Import SyncProofs SyncRange.
Local Open Scope N_scope.

Definition pend (n : Net) (r : H256) : option Pending := sv_pending (nt_srv n) !! r.

Section Root.
  Context (root_of : SignedBlock -> H256).

  (** What one event does for the block [r]. *)
  Definition r_same (r : H256) (n n' : Net) (acts : list Action) : Prop :=
    pend n' r = pend n r /\ requests r acts = [] /\ backoffs r acts = [] /\
    (forall id p, waiting_root n' id p r <-> waiting_root n id p r) /\ (r ∈ nt_timers n' <-> r ∈ nt_timers n).
  Definition r_sent (r : H256) (n n' : Net) (acts : list Action) (p : N) : Prop :=
    p ∈ sv_connected (nt_srv n) /\ requests r acts = [p] /\ backoffs r acts = [] /\
    (exists id, waiting_root n' id p r) /\ r ∉ nt_timers n'.
  Definition r_fail (n : Net) (ev : Event) (p : N) (r : H256) : Prop :=
    exists id, waiting_root n id p r /\ (ev = EvFailure id \/ ev = EvBlocks id []).

  Definition deliveries (acts : list Action) : Prop := forall x, x ∈ acts -> exists b, x = Deliver b.

  Lemma requests_other acts r : (forall id p, SendRoot id p r ∉ acts) -> requests r acts = [].
  Proof using.
    unfold requests. induction acts as [|x acts IH]; [done|]. intros H. cbn.
    assert (omap (fun x => match x with SendRoot _ p r' => if decide (r' = r) then Some p else None | _ => None end) acts = []) as IH'.
    { apply IH. intros id p Hx. eapply H. right. exact Hx. }
    destruct x; try done. destruct (decide _) as [->|]; [|done]. exfalso. eapply H. left.
  Qed.
  Lemma backoffs_other acts r : (forall ms, RetryAfter r ms ∉ acts) -> backoffs r acts = [].
  Proof using.
    unfold backoffs. induction acts as [|x acts IH]; [done|]. intros H. cbn.
    assert (omap (fun x => match x with RetryAfter r' ms => if decide (r' = r) then Some ms else None | _ => None end) acts = []) as IH'.
    { apply IH. intros ms Hx. eapply H. right. exact Hx. }
    destruct x; try done. destruct (decide _) as [->|]; [|done]. exfalso. eapply H. left.
  Qed.

  Lemma inv_unique n id id' p p' r : inv n -> waiting_root n id p r -> waiting_root n id' p' r -> id = id' /\ p = p'.
  Proof using.
    intros (_ & _ & Ho) H H'. assert (id = id') as -> by exact (io_one _ _ _ Ho _ _ _ _ _ H H').
    unfold waiting_root in *. rewrite H in H'. by simplify_eq.
  Qed.

  (** Range events do nothing for single blocks. *)
  Lemma reqnext_root oc n s s' acts dl r :
    request_next_range_batch oc s = (s', acts) ->
    (oc_sent oc = None \/ oc_sent oc = Some (nt_next n)) ->
    inv_ids (nt_live n) (sv_out s) (nt_next n) ->
    sv_pending s !! r = pend n r ->
    r_same r n (take_all n (s', map Deliver dl ++ acts)).1 (map Deliver dl ++ acts).
  Proof using.
    intros Hq Hoc [Hi _] Hp. apply reqnext_spec in Hq as (_ & _ & H3 & Hq). unfold r_same. rewrite take_all_deliver.
    assert (forall id p, SendRoot id p r ∉ acts) as Hns.
    { intros id p Hx. destruct Hq as [(-> & _)|[(? & ? & ? & ? & _ & _ & _ & -> & _)|(? & ? & ? & ? & ? & _ & _ & _ & -> & _)]];
        first [by apply elem_of_nil in Hx|by apply elem_of_list_singleton in Hx]. }
    assert (forall ms, RetryAfter r ms ∉ acts) as Hnr.
    { intros ms Hx. destruct Hq as [(-> & _)|[(? & ? & ? & ? & _ & _ & _ & -> & _)|(? & ? & ? & ? & ? & _ & _ & _ & -> & _)]];
        first [by apply elem_of_nil in Hx|by apply elem_of_list_singleton in Hx]. }
    split_and!.
    - rewrite <- Hp. unfold pend. destruct Hq as [(-> & -> & _)|[(? & ? & ? & ? & _ & _ & _ & -> & _)|(? & ? & ? & ? & ? & _ & _ & _ & -> & _)]]; cbn; first [done|by rewrite H3].
    - apply requests_other. intros id p. rewrite elem_of_app. intros [Hx|Hx]; [|by apply Hns in Hx].
      apply elem_of_list_In, in_map_iff in Hx as (? & ? & _). done.
    - apply backoffs_other. intros ms. rewrite elem_of_app. intros [Hx|Hx]; [|by apply Hnr in Hx].
      apply elem_of_list_In, in_map_iff in Hx as (? & ? & _). done.
    - intros id p. destruct Hq as [(-> & -> & _)|[(? & ? & ? & ? & _ & _ & _ & -> & _)|(? & ? & ? & ? & id' & _ & _ & Hid & -> & _)]]; [done|done|].
      destruct Hoc as [Hoc|Hoc]; [congruence|]. rewrite Hid in Hoc. injection Hoc as ->.
      unfold waiting_root. cbn. destruct (decide (id = nt_next n)) as [->|]; [|by rewrite lookup_insert_ne].
      rewrite lookup_insert. split; [done|]. intros Hx. apply Hi in Hx. lia.
    - destruct Hq as [(-> & -> & _)|[(? & ? & ? & ? & _ & _ & _ & -> & _)|(? & ? & ? & ? & id' & _ & _ & Hid & -> & _)]]; done.
  Qed.

  Lemma root_step pick ok n ev n' acts r :
    inv n -> step root_of pick ok n ev = Some (n', acts) ->
    (* nothing to do with the block *)
    (r_same r n n' acts /\ (ev = EvFetch r -> exists pd, pend n r = Some pd) /\ ev <> EvRetry r /\
      (forall id p, waiting_root n id p r -> ev <> EvFailure id /\ forall bs, ev <> EvBlocks id bs)) \/
    (* a new fetch *)
    (ev = EvFetch r /\ pend n r = None /\
      ((r_same r n n' acts /\ (sv_connected (nt_srv n) = ∅ \/ ok = false)) \/
       (ok = true /\ pend n' r = Some (mkPending 1 ∅) /\ exists p, r_sent r n n' acts p))) \/
    (* a retry *)
    (ev = EvRetry r /\ r ∈ nt_timers n /\ exists pd, pend n r = Some pd /\
      ((pend n' r = None /\ quiet n' r /\ requests r acts = [] /\ backoffs r acts = [] /\
        (sv_connected (nt_srv n) = ∅ \/ ok = false)) \/
       (exists p, r_sent r n n' acts p /\
         ((p ∉ pd_failed pd /\ pend n' r = Some pd) \/
          (sv_connected (nt_srv n) ⊆ pd_failed pd /\ pend n' r = Some (mkPending (pd_attempts pd) ∅)))))) \/
    (* a failure *)
    (exists p pd, r_fail n ev p r /\ pend n r = Some pd /\
      ((10 <= pd_attempts pd /\ acts = [] /\ pend n' r = None /\ quiet n' r) \/
       (pd_attempts pd < 10 /\ acts = [RetryAfter r (5 * 2 ^ (pd_attempts pd - 1))] /\
        pend n' r = Some (mkPending (pd_attempts pd + 1) ({[p]} ∪ pd_failed pd)) /\
        r ∈ nt_timers n' /\ forall id q, ~ waiting_root n' id q r))) \/
    (* an answer *)
    (exists id p bs, waiting_root n id p r /\ ev = EvBlocks id bs /\ bs <> [] /\ quiet n' r /\ deliveries acts /\
      ((exists b, b ∈ bs /\ root_of b = r) -> pend n' r = None) /\
      (forall b, b ∈ bs -> root_of b = r -> sv_chain (nt_srv n) = true -> Deliver b ∈ acts) /\
      ((forall b, b ∈ bs -> root_of b <> r) -> pend n' r = pend n r /\ acts = [])).
  Proof using.
    intros Hinv Hst. pose proof Hinv as (Hi & Hr & Ho). pose proof (oc_cases pick ok n) as Hoc.
    unfold step in Hst. set (oc := mkOc pick _) in *. destruct ev as [|p first|p last|r0|r0|p h oh|id bs|id].
    - left. injection Hst as <- <-. done.
    - left. destruct first; injection Hst as <- <-; done.
    - left. destruct last; injection Hst as <- <-; done.
    - unfold handle_fetch_block in Hst. destruct (sv_pending (nt_srv n) !! r0) as [pd|] eqn:Hpd.
      { left. injection Hst as <- <-. split_and!; try done. intros [= ->]. eauto. }
      destruct (fetch_block_from_peer oc (nt_srv n) r0) as [[s' a'] ok'] eqn:Hf. cbn in Hst. injection Hst as <- <-.
      apply fetch_spec in Hf as (H1 & H2 & H3 & H4 & Hf). destruct (decide (r0 = r)) as [->|Hne].
      + right; left. split; [done|]. split; [done|].
        destruct Hf as [(-> & -> & Hout & Hn & _ & Hwhy)|(-> & id & p & Hid & -> & Hin & Hout & Hn & _)].
        * left. split; [|destruct Hwhy as [|Hw]; [by left|right; subst oc; by destruct ok]].
          split_and!; try done. unfold pend. cbn. rewrite Hn by done. by rewrite Hpd.
        * right. assert (ok = true) as ->. { subst oc. destruct ok; done. }
          split; [done|]. split; [by apply Hn|]. exists p. split_and!; [done|cbn; by rewrite decide_True|done| |].
          -- exists id. unfold waiting_root. cbn. by rewrite lookup_insert.
          -- cbn. intros Hx. destruct (io_timer _ _ _ Ho _ Hx). congruence.
      + left. split_and!; [|by intros [= ->]|done|done].
        destruct Hf as [(-> & -> & Hout & Hn & _)|(-> & id & p & Hid & -> & Hin & Hout & Hn & _)]; split_and!; try done.
        * unfold pend. cbn. by apply H4.
        * unfold pend. cbn. by apply H4.
        * cbn. by rewrite decide_False.
        * intros id' q. unfold waiting_root. cbn. destruct (decide (id' = id)) as [->|]; [|by rewrite lookup_insert_ne].
          rewrite lookup_insert. split; [by intros [= -> ->]|]. intros Hx. apply (proj1 Hi) in Hx.
          destruct Hoc as [Hoc|Hoc]; [congruence|]. rewrite Hid in Hoc. injection Hoc as ->. lia.
    - destruct (remove_one r0 (nt_timers n)) as [t|] eqn:Ht; [|done].
      destruct (remove_one_spec _ _ _ Ht (io_nodup _ _ _ Ho)) as (T1 & T2 & T3 & T4).
      unfold handle_retry_block_fetch in Hst. destruct (io_timer _ _ _ Ho _ T1) as [pd Hpd]. rewrite Hpd in Hst.
      destruct (fetch_block_from_peer oc (nt_srv n) r0) as [[s' a'] ok'] eqn:Hf.
      apply fetch_spec in Hf as (H1 & H2 & H3 & H4 & Hf). destruct (decide (r0 = r)) as [->|Hne].
      + right; right; left. split; [done|]. split; [done|]. exists pd. split; [done|].
        destruct Hf as [(-> & -> & Hout & _ & _ & Hwhy)|(-> & id & p & Hid & -> & Hin & Hout & _ & Hs)]; injection Hst as <- <-.
        * left. split_and!; try done.
          -- unfold pend. cbn. by rewrite lookup_delete.
          -- split; [|done]. intros id p Hx. exact (io_apart _ _ _ Ho _ _ _ Hx T1).
          -- destruct Hwhy as [|Hw]; [by left|right; subst oc; by destruct ok].
        * right. exists p. split; [|exact (Hs pd Hpd)].
          split_and!; [done|cbn; by rewrite decide_True|done| |done].
          exists id. unfold waiting_root. cbn. by rewrite lookup_insert.
      + left. split_and!; [|done|congruence|done].
        destruct Hf as [(-> & -> & Hout & Hn & _)|(-> & id & p & Hid & -> & Hin & Hout & Hn & _)]; injection Hst as <- <-; split_and!; try done.
        * unfold pend. cbn. rewrite lookup_delete_ne by done. by apply H4.
        * cbn. by apply T4.
        * unfold pend. cbn. by apply H4.
        * cbn. by rewrite decide_False.
        * intros id' q. unfold waiting_root. cbn. destruct (decide (id' = id)) as [->|]; [|by rewrite lookup_insert_ne].
          rewrite lookup_insert. split; [by intros [= -> ->]|]. intros Hx. apply (proj1 Hi) in Hx.
          destruct Hoc as [Hoc|Hoc]; [congruence|]. rewrite Hid in Hoc. injection Hoc as ->. lia.
        * cbn. by apply T4.
    - left. split_and!; try done. destruct (two64 <=? h); [done|]. unfold handle_status_response in Hst.
      destruct (h <=? oh); [injection Hst as <- <-; done|].
      destruct (request_next_range_batch oc _) as [s' a'] eqn:Hq. injection Hst as <- <-.
      exact (reqnext_root oc n _ s' a' [] r Hq Hoc Hi eq_refl).
    - destruct (nt_live n !! id) as [[p k]|] eqn:Hl; [|done].
      destruct (inv_delete _ _ _ _ Hinv Hl) as [Hi' Hout]. unfold handle_blocks in Hst. rewrite Hout in Hst.
      set (n1 := mkNet (nt_srv n) (delete id (nt_live n)) (nt_timers n) (nt_next n)) in *.
      assert (k <> KRoot r -> forall id' q, waiting_root n1 id' q r <-> waiting_root n id' q r) as Hother.
      { intros Hk id' q. unfold waiting_root. cbn. rewrite lookup_delete_Some. split; [naive_solver|]. intros Hx. split; [|done].
        intros <-. rewrite Hl in Hx. injection Hx as -> ->. done. }
      assert (k <> KRoot r -> forall id' q, waiting_root n id' q r ->
        EvBlocks id bs <> EvFailure id' /\ forall bs', EvBlocks id bs <> EvBlocks id' bs') as Hev.
      { intros Hk id' q Hx. split; [done|]. intros bs' [= -> ->]. unfold waiting_root in Hx. rewrite Hl in Hx. by simplify_eq. }
      destruct k as [r0|a e].
      + destruct (inv_delete_root _ _ _ _ Hinv Hl) as (Hr' & Ho' & Hq & Ht).
        destruct (io_live _ _ _ Ho _ _ _ Hl) as [pd Hpd].
        unfold handle_blocks_by_root_response in Hst. destruct bs as [|b bs].
        * destruct (handle_fetch_failure _ r0 p) as [s' a'] eqn:Hf. injection Hst as <- <-.
          apply failure_spec in Hf as (F1 & F2 & F3 & F4 & F5 & Hf). cbn in F5, Hf.
          destruct Hf as [(Hn & _)|(pd' & Hpd' & Hf)]; [congruence|]. rewrite Hpd in Hpd'. injection Hpd' as <-.
          destruct (decide (r0 = r)) as [->|Hne].
          -- right; right; right; left. exists p, pd. split_and!; [exists id; split; [done|by right]|done|].
             destruct Hf as [(Ha & -> & Hn)|(Ha & -> & Hn)]; [left|right]; split_and!; try done.
             cbn. apply elem_of_app. right. left.
          -- left. split_and!; [|done|done|apply Hev; congruence].
             destruct Hf as [(Ha & -> & Hn)|(Ha & -> & Hn)]; split_and!; try done.
             ++ unfold pend. cbn. by apply F5.
             ++ apply Hother. congruence.
             ++ unfold pend. cbn. by apply F5.
             ++ cbn. by rewrite decide_False.
             ++ apply Hother. congruence.
             ++ cbn. rewrite elem_of_app, elem_of_list_singleton. naive_solver.
        * destruct (root_loop root_of _ r0 (b :: bs)) as [s' a'] eqn:Hf.
          apply root_loop_spec in Hf as (F1 & F2 & F3 & F4 & F5 & F6 & F7 & F8). cbn [set_out sv_pending sv_chain] in F5, F6, F7.
          assert (forall x, x ∈ a' -> exists b, x = Deliver b) as Hdel by (intros x Hx; apply F6 in Hx; naive_solver).
          injection Hst as <- <-. rewrite (fold_delivers a') by done.
          destruct (decide (r0 = r)) as [->|Hne].
          -- right; right; right; right. exists id, p, (b :: bs). split_and!; try done.
             ++ intros b' Hb' Hrb Hch. apply F6. eauto.
             ++ intros Hall. destruct (F8 Hall) as [-> ->]. done.
          -- left. split_and!; [|done|done|apply Hev; congruence]. split_and!.
             ++ unfold pend. cbn. by apply F5.
             ++ apply requests_other. intros i q Hx. apply Hdel in Hx as [? ?]. done.
             ++ apply backoffs_other. intros i Hx. apply Hdel in Hx as [? ?]. done.
             ++ apply Hother. congruence.
             ++ done.
      + left. split_and!; [|done|done|by apply Hev].
        assert (r_same r n1 n' acts) as (R1 & R2 & R3 & R4 & R5).
        2:{ split_and!; try done. intros id' q. rewrite R4. by apply Hother. }
        unfold handle_blocks_by_range_response in Hst. destruct bs as [|b bs].
        * injection Hst as <- <-. split_and!; try done. unfold pend. cbn.
          by rewrite (proj1 (proj2 (proj2 (fail_range_other _ p)))).
        * destruct (sv_chain _).
          2:{ injection Hst as <- <-. done. }
          destruct (sv_range _) as [rg|].
          -- destruct ((_ <=? _) || _).
             ++ injection Hst as <- <-. rewrite fold_deliver. split_and!; try done.
                ** apply requests_other. intros i q Hx. apply elem_of_list_In, in_map_iff in Hx as (? & ? & _). done.
                ** apply backoffs_other. intros i Hx. apply elem_of_list_In, in_map_iff in Hx as (? & ? & _). done.
             ++ destruct (request_next_range_batch oc _) as [s' a'] eqn:Hq. injection Hst as <- <-.
                exact (reqnext_root oc n1 _ s' a' _ r Hq Hoc Hi' eq_refl).
          -- destruct (request_next_range_batch oc _) as [s' a'] eqn:Hq. injection Hst as <- <-.
             exact (reqnext_root oc n1 _ s' a' _ r Hq Hoc Hi' eq_refl).
    - destruct (nt_live n !! id) as [[p k]|] eqn:Hl; [|done].
      destruct (inv_delete _ _ _ _ Hinv Hl) as [Hi' Hout]. unfold handle_outbound_failure in Hst. rewrite Hout in Hst.
      set (n1 := mkNet (nt_srv n) (delete id (nt_live n)) (nt_timers n) (nt_next n)) in *.
      assert (k <> KRoot r -> forall id' q, waiting_root n1 id' q r <-> waiting_root n id' q r) as Hother.
      { intros Hk id' q. unfold waiting_root. cbn. rewrite lookup_delete_Some. split; [naive_solver|]. intros Hx. split; [|done].
        intros <-. rewrite Hl in Hx. injection Hx as -> ->. done. }
      assert (k <> KRoot r -> forall id' q, waiting_root n id' q r ->
        EvFailure id <> EvFailure id' /\ forall bs', EvFailure id <> EvBlocks id' bs') as Hev.
      { intros Hk id' q Hx. split; [|done]. intros [= ->]. unfold waiting_root in Hx. rewrite Hl in Hx. by simplify_eq. }
      destruct k as [r0|a e].
      + destruct (inv_delete_root _ _ _ _ Hinv Hl) as (Hr' & Ho' & Hq & Ht).
        destruct (io_live _ _ _ Ho _ _ _ Hl) as [pd Hpd].
        destruct (handle_fetch_failure _ r0 p) as [s' a'] eqn:Hf. injection Hst as <- <-.
        apply failure_spec in Hf as (F1 & F2 & F3 & F4 & F5 & Hf). cbn in F5, Hf.
        destruct Hf as [(Hn & _)|(pd' & Hpd' & Hf)]; [congruence|]. rewrite Hpd in Hpd'. injection Hpd' as <-.
        destruct (decide (r0 = r)) as [->|Hne].
        * right; right; right; left. exists p, pd. split_and!; [exists id; split; [done|by left]|done|].
          destruct Hf as [(Ha & -> & Hn)|(Ha & -> & Hn)]; [left|right]; split_and!; try done.
          cbn. apply elem_of_app. right. left.
        * left. split_and!; [|done|done|apply Hev; congruence].
          destruct Hf as [(Ha & -> & Hn)|(Ha & -> & Hn)]; split_and!; try done.
          -- unfold pend. cbn. by apply F5.
          -- apply Hother. congruence.
          -- unfold pend. cbn. by apply F5.
          -- cbn. by rewrite decide_False.
          -- apply Hother. congruence.
          -- cbn. rewrite elem_of_app, elem_of_list_singleton. naive_solver.
      + left. split_and!; [|done|done|by apply Hev].
        injection Hst as <- <-. split_and!; try done.
        * unfold pend. cbn. by rewrite (proj1 (proj2 (proj2 (fail_range_other _ p)))).
        * by apply Hother.
  Qed.

  Lemma requests_app r l l' : requests r (l ++ l') = requests r l ++ requests r l'.
  Proof using. unfold requests. apply omap_app. Qed.
  Lemma backoffs_app r l l' : backoffs r (l ++ l') = backoffs r l ++ backoffs r l'.
  Proof using. unfold backoffs. apply omap_app. Qed.

  Lemma quiet_untracked n r : reached root_of n -> ~ tracked n r -> quiet n r.
  Proof using.
    intros (_ & _ & Ho)%reached_inv Hn. split.
    - intros id p Hx. apply Hn. exact (io_live _ _ _ Ho _ _ _ Hx).
    - intros Hx. apply Hn. exact (io_timer _ _ _ Ho _ Hx).
  Qed.

  Lemma one_at_a_time n id p id' p' r :
    reached root_of n -> waiting_root n id p r ->
    r ∉ nt_timers n /\ (waiting_root n id' p' r -> id' = id /\ p' = p).
  Proof using.
    intros Hi%reached_inv Hw. split.
    - intros Ht. exact (io_apart _ _ _ (proj2 (proj2 Hi)) _ _ _ Hw Ht).
    - intros Hw'. destruct (inv_unique _ _ _ _ _ _ Hi Hw Hw') as [-> ->]. done.
  Qed.
  Lemma timers_once n : reached root_of n -> NoDup (nt_timers n).
  Proof using. intros (_ & _ & Ho)%reached_inv. exact (io_nodup _ _ _ Ho). Qed.

  Lemma backoff_next k :
    (k <= 8)%nat -> take k schedule ++ [5 * 2 ^ (N.of_nat k)] = take (S k) schedule.
  Proof using. intros Hk. do 9 (destruct k as [|k]; [vm_compute; reflexivity|]). exfalso. lia. Qed.

  (** The state of a fetch as a function of its history. *)
  Definition shape (r : H256) (A : list Action) (fl : N -> Prop) (m : Net) : Prop :=
    exists pd k, pend m r = Some pd /\ pd_attempts pd = N.of_nat k + 1 /\ (k <= 9)%nat /\
      backoffs r A = take k schedule /\
      length (requests r A) = (if decide (r ∈ nt_timers m) then k else S k) /\
      (forall q, q ∈ pd_failed pd -> fl q).

  Lemma shape_step r A fl (fl' : N -> Prop) pick ok n ev m acts :
    inv n -> shape r A fl n -> step root_of pick ok n ev = Some (m, acts) -> tracked m r ->
    (forall q, fl q -> fl' q) -> (forall q, r_fail n ev q r -> fl' q) ->
    shape r (A ++ acts) fl' m.
  Proof using.
    intros Hi (pd & k & Hpd & Hat & Hk & Hb & Hq & Hf) Hst [pd' Hpd'] Hfl Hfl'. fold (pend m r) in Hpd'.
    pose proof Hi as (_ & _ & Ho).
    destruct (root_step _ _ _ _ _ _ r Hi Hst) as
      [((R1 & R2 & R3 & R4 & R5) & _)|[(_ & Hn & _)|[(_ & Ht & pd0 & Hpd0 & Hc)|[(p & pd0 & Hr & Hpd0 & Hc)|Hc]]]].
    - exists pd, k. rewrite R1, backoffs_app, requests_app, R2, R3, !app_nil_r. split_and!; try done.
      + rewrite Hq. destruct (decide (r ∈ nt_timers n)) as [H|H]; destruct (decide (r ∈ nt_timers m)) as [H'|H']; try done; exfalso; tauto.
      + auto.
    - congruence.
    - rewrite Hpd in Hpd0. injection Hpd0 as <-.
      destruct Hc as [(Hn & _)|(p & (_ & S2 & S3 & _ & S5) & Hc)]; [congruence|].
      rewrite decide_True in Hq by done.
      destruct Hc as [(_ & Hp)|(_ & Hp)].
      + exists pd, k. rewrite backoffs_app, requests_app, S2, S3, app_nil_r, app_length, Hq. cbn.
        rewrite decide_False by done. split_and!; try done; [lia|auto].
      + exists (mkPending (pd_attempts pd) ∅), k. rewrite backoffs_app, requests_app, S2, S3, app_nil_r, app_length, Hq. cbn.
        rewrite decide_False by done. split_and!; try done; lia.
    - rewrite Hpd in Hpd0. injection Hpd0 as <-.
      destruct Hc as [(_ & _ & Hn & _)|(Ha & -> & Hp & Ht & _)]; [congruence|].
      assert (r ∉ nt_timers n) as Hnt.
      { intros Hx. destruct Hr as (id & Hw & _). exact (io_apart _ _ _ Ho _ _ _ Hw Hx). }
      rewrite decide_False in Hq by done.
      exists (mkPending (pd_attempts pd + 1) ({[p]} ∪ pd_failed pd)), (S k).
      rewrite backoffs_app, requests_app, Hb, app_length, Hq. cbn [backoffs requests omap list_omap].
      rewrite (decide_True _ _ (eq_refl r)), (decide_True (P := r ∈ nt_timers m)) by done. cbn.
      replace (pd_attempts pd - 1) with (N.of_nat k) by lia.
      split_and!; [done|lia|lia|apply backoff_next; lia|lia|].
      intros q Hx. apply elem_of_union in Hx as [Hx|Hx]; [|auto]. apply elem_of_singleton in Hx as ->. auto.
    - destruct Hc as (id & p & bs & Hw & -> & _ & [_ Hqt] & Hdl & Hyes & _ & Hno).
      assert (forall b, b ∈ bs -> root_of b <> r) as Hall.
      { intros b Hb' Hrb. rewrite Hyes in Hpd' by eauto. done. }
      destruct (Hno Hall) as [Hp ->]. rewrite app_nil_r.
      exists pd, k. rewrite Hp. split_and!; try done; [|auto].
      assert (r ∉ nt_timers n) as Hnt by (intros Hx; exact (io_apart _ _ _ Ho _ _ _ Hw Hx)).
      rewrite Hq, !decide_False by done. done.
  Qed.

  Lemma session_snoc r n0 x l y m :
    session root_of r n0 x (l ++ [y]) m -> exists pick, session root_of r n0 x l (en_pre y) /\
      step root_of pick (en_ok y) (en_pre y) (en_event y) = Some (m, en_acts y) /\ tracked m r.
  Proof using.
    intros (H1 & H2 & H3 & H4 & H5). rewrite app_comm_cons in H3. apply run_snoc in H3 as (k & pick & H3 & H3' & H3'').
    rewrite H3'. exists pick. split_and!; try done. split_and!; try done. split.
    - intros z Hz. apply H4. apply elem_of_app. by left.
    - rewrite <- H3'. apply H4. apply elem_of_app. right. left.
  Qed.
  Lemma session_inv r n0 x l m : session root_of r n0 x l m -> inv m.
  Proof using. intros (H1 & _ & H3 & _). eapply run_inv; [done|]. by apply reached_inv in H1. Qed.

  Lemma session_shape r n0 x l m :
    session root_of r n0 x l m ->
    shape r (acts_of (x :: l)) (fun q => exists y, y ∈ l /\ peer_failed q r y) m.
  Proof using.
    revert m. induction l as [|y l IH] using rev_ind; intros m Hs.
    - destruct Hs as (H1 & H2 & H3 & _ & [pd Hpd]). fold (pend m r) in Hpd.
      inversion H3 as [|? pick ok ev n' acts l0 m0 Hst Hrun]; subst. inversion Hrun; subst. clear Hrun H3.
      assert (pend n0 r = None) as Hn0. { unfold tracked in H2. unfold pend. destruct (sv_pending _ !! r); [|done]. exfalso. eauto. }
      pose proof (reached_inv _ _ H1) as Hi. rewrite acts_cons. cbn [en_acts acts_of map concat]. rewrite app_nil_r.
      destruct (root_step _ _ _ _ _ _ r Hi Hst) as
        [((R1 & _) & _)|[(_ & _ & [((R1 & _) & _)|(_ & Hp & p & _ & S2 & S3 & _ & S5)])|[(_ & _ & pd0 & Hpd0 & _)|[(p & pd0 & _ & Hpd0 & _)|Hc]]]];
        try congruence.
      + exists (mkPending 1 ∅), 0%nat. rewrite S2, S3, decide_False by done. split_and!; try done. lia.
      + exfalso. destruct Hc as (id & p & bs & Hw & _). destruct (io_live _ _ _ (proj2 (proj2 Hi)) _ _ _ Hw) as [pd0 Hx].
        unfold pend in Hn0. congruence.
    - destruct (session_snoc _ _ _ _ _ _ Hs) as (pick & Hs' & Hst & Ht). rewrite app_comm_cons, acts_app, acts_cons.
      cbn [acts_of map concat]. rewrite app_nil_r.
      change (en_acts x ++ concat (map en_acts l)) with (acts_of (x :: l)).
      eapply shape_step; [exact (session_inv _ _ _ _ _ Hs')|exact (IH _ Hs')|exact Hst|done| |].
      + intros q (z & Hz & Hf). exists z. split; [apply elem_of_app; by left|done].
      + intros q Hf. exists y. split; [apply elem_of_app; right; left|exact Hf].
  Qed.

  Lemma C48_attempts_pf r n0 x l m :
    session root_of r n0 x l m ->
    exists k, (k <= 9)%nat /\
      backoffs r (acts_of (x :: l)) = take k schedule /\
      length (requests r (acts_of (x :: l))) = (if decide (r ∈ nt_timers m) then k else S k).
  Proof using. intros (pd & k & _ & _ & Hk & Hb & Hq & _)%session_shape. eauto. Qed.

  Lemma take_len k : (k <= 9)%nat -> length (take k schedule) = k.
  Proof using. intros Hk. rewrite take_length. cbn. lia. Qed.

  Lemma C48_failure_pf r n0 x l m pick ok ev m' acts p :
    session root_of r n0 x l m -> step root_of pick ok m ev = Some (m', acts) ->
    peer_failed p r (mkEntry m ev ok acts) ->
    let k := length (backoffs r (acts_of (x :: l))) in
    (k = 9%nat -> ~ tracked m' r /\ quiet m' r /\ acts = []) /\
    ((k < 9)%nat -> tracked m' r /\ r ∈ nt_timers m' /\ acts = [RetryAfter r (5 * 2 ^ N.of_nat k)]).
  Proof using.
    intros Hs Hst (id & Hw & Hev) kk. pose proof (session_inv _ _ _ _ _ Hs) as Hi. cbn in Hw, Hev.
    apply session_shape in Hs as (pd & k & Hpd & Hat & Hk & Hb & _). subst kk. rewrite Hb, take_len by done.
    destruct (root_step _ _ _ _ _ _ r Hi Hst) as
      [(_ & _ & _ & Hno)|[(-> & _)|[(-> & _)|[(q & pd0 & Hr & Hpd0 & Hc)|(id' & q & bs & Hw' & -> & Hne & _)]]]].
    - exfalso. destruct (Hno _ _ Hw) as [Hn1 Hn2]. destruct Hev as [-> | ->]; [done|]. by eapply Hn2.
    - by destruct Hev.
    - by destruct Hev.
    - rewrite Hpd in Hpd0. injection Hpd0 as <-. destruct Hc as [(Ha & -> & Hn & Hq)|(Ha & -> & Hn & Ht & _)].
      + split; [|lia]. intros _. split_and!; try done. intros [pd' Hx]. unfold pend in Hn. congruence.
      + split; [lia|]. intros _. split_and!; [by eexists|done|]. replace (pd_attempts pd - 1) with (N.of_nat k) by lia. done.
    - destruct (inv_unique _ _ _ _ _ _ Hi Hw Hw') as [<- <-]. destruct Hev as [|[= ->]]; done.
  Qed.

  Lemma C48_success_pf n id p r pick ok bs b m acts :
    reached root_of n -> waiting_root n id p r -> b ∈ bs -> root_of b = r ->
    step root_of pick ok n (EvBlocks id bs) = Some (m, acts) ->
    ~ tracked m r /\ quiet m r /\ (sv_chain (nt_srv n) = true -> Deliver b ∈ acts).
  Proof using.
    intros Hi%reached_inv Hw Hb Hrb Hst.
    destruct (root_step _ _ _ _ _ _ r Hi Hst) as
      [(_ & _ & _ & Hno)|[(? & _)|[(? & _)|[(q & pd0 & (id' & Hw' & Hev) & _)|(id' & q & bs' & Hw' & [= <- <-] & _ & Hq & _ & Hyes & Hdel & _)]]]]; try done.
    - exfalso. destruct (Hno _ _ Hw) as [_ Hn2]. by eapply Hn2.
    - destruct Hev as [|[= -> ->]]; [done|]. by apply elem_of_nil in Hb.
    - split_and!; [|done|by apply Hdel]. intros [pd Hx]. unfold pend in Hyes. rewrite Hyes in Hx by eauto. done.
  Qed.

  (** A peer that failed stays marked until every connected peer is. *)
  Definition full_round (r : H256) (before : list Entry) (z : Entry) : Prop :=
    requests r (en_acts z) <> [] /\
    forall q, q ∈ sv_connected (nt_srv (en_pre z)) -> exists y, y ∈ before /\ peer_failed q r y.

  Lemma avoid_run r n0 x0 p l lb m :
    session root_of r n0 x0 (l ++ lb) m ->
    (forall n, session root_of r n0 x0 l n -> exists pd, pend n r = Some pd /\ p ∈ pd_failed pd) ->
    (exists pd, pend m r = Some pd /\ p ∈ pd_failed pd) \/
    exists l1 z l2, lb = l1 ++ z :: l2 /\ full_round r (l ++ l1) z.
  Proof using.
    revert m. induction lb as [|z lb IH] using rev_ind; intros m Hs Hl.
    - left. apply Hl. by rewrite app_nil_r in Hs.
    - rewrite app_assoc in Hs. destruct (session_snoc _ _ _ _ _ _ Hs) as (pick & Hs' & Hst & [pd' Hpd']).
      fold (pend m r) in Hpd'.
      destruct (IH _ Hs' Hl) as [(pd & Hpd & Hp)|(l1 & z' & l2 & -> & H)].
      2:{ right. exists l1, z', (l2 ++ [z]). split; [by rewrite <- app_assoc|done]. }
      pose proof (session_inv _ _ _ _ _ Hs') as Hi. pose proof (session_shape _ _ _ _ _ Hs') as (pd1 & k & Hpd1 & _ & _ & _ & _ & Hf).
      rewrite Hpd in Hpd1. injection Hpd1 as <-.
      destruct (root_step _ _ _ _ _ _ r Hi Hst) as
        [((R1 & _) & _)|[(_ & Hn & _)|[(_ & _ & pd0 & Hpd0 & Hc)|[(q & pd0 & _ & Hpd0 & Hc)|(id & q & bs & Hw & _ & _ & _ & _ & Hyes & _ & Hno)]]]].
      + left. rewrite R1. eauto.
      + congruence.
      + rewrite Hpd in Hpd0. injection Hpd0 as <-.
        destruct Hc as [(Hn & _)|(q & (_ & S2 & _) & [(_ & Hp')|(Hsub & Hp')])]; [congruence|left; eauto|].
        right. exists lb, z, []. split; [done|]. split; [by rewrite S2|]. intros q' Hq'. apply Hf. by apply Hsub.
      + rewrite Hpd in Hpd0. injection Hpd0 as <-. destruct Hc as [(_ & _ & Hn & _)|(_ & _ & Hp' & _)]; [congruence|].
        left. rewrite Hp'. eexists; split; [done|]. cbn. set_solver.
      + left. assert (forall b, b ∈ bs -> root_of b <> r) as Hall.
        { intros b Hb' Hrb. rewrite Hyes in Hpd' by eauto. done. }
        destruct (Hno Hall) as [-> _]. eauto.
  Qed.

  Lemma C48_avoid_pf r n0 x0 l x m p :
    session root_of r n0 x0 (l ++ [x]) m -> p ∈ requests r (en_acts x) ->
    p ∈ sv_connected (nt_srv (en_pre x)) /\
    forall la y lb, l = la ++ y :: lb -> peer_failed p r y ->
      exists l1 z l2, lb ++ [x] = l1 ++ z :: l2 /\ requests r (en_acts z) <> [] /\
        forall q, q ∈ sv_connected (nt_srv (en_pre z)) -> exists y', y' ∈ la ++ y :: l1 /\ peer_failed q r y'.
  Proof using.
    intros Hs Hp. destruct (session_snoc _ _ _ _ _ _ Hs) as (pick & Hs' & Hst & [pd' Hpd']).
    pose proof (session_inv _ _ _ _ _ Hs') as Hi. pose proof (session_shape _ _ _ _ _ Hs') as (pd & k & Hpd & _ & _ & _ & _ & Hf).
    assert (p ∈ sv_connected (nt_srv (en_pre x)) /\
      (p ∉ pd_failed pd \/ sv_connected (nt_srv (en_pre x)) ⊆ pd_failed pd)) as [Hcon Hor].
    { destruct (root_step _ _ _ _ _ _ r Hi Hst) as
        [((_ & R2 & _) & _)|[(_ & Hn & _)|[(_ & _ & pd0 & Hpd0 & Hc)|[(q & pd0 & _ & Hpd0 & Hc)|(id & q & bs & _ & _ & _ & _ & Hdl & _)]]]].
      - rewrite R2 in Hp. by apply elem_of_nil in Hp.
      - congruence.
      - rewrite Hpd in Hpd0. injection Hpd0 as <-.
        destruct Hc as [(_ & _ & R & _)|(q & (S1 & S2 & _) & Hc)]; [rewrite R in Hp; by apply elem_of_nil in Hp|].
        rewrite S2 in Hp. apply elem_of_list_singleton in Hp as ->. split; [done|].
        destruct Hc as [(Hc & _)|(Hc & _)]; [by left|by right].
      - destruct Hc as [(_ & E & _)|(_ & E & _)]; rewrite E in Hp; by apply elem_of_nil in Hp.
      - rewrite (requests_other (en_acts x) r) in Hp; [by apply elem_of_nil in Hp|].
        intros i j Hx. apply Hdl in Hx as [? ?]. done. }
    split; [done|]. intros la y lb -> Hy.
    assert (forall n, session root_of r n0 x0 (la ++ [y]) n -> exists pd, pend n r = Some pd /\ p ∈ pd_failed pd) as Hstart.
    { intros n Hn. destruct (session_snoc _ _ _ _ _ _ Hn) as (pk & Hn' & Hsy & [pdn Hpdn]).
      pose proof (session_inv _ _ _ _ _ Hn') as Hin. destruct Hy as (id & Hw & Hev). fold (pend n r) in Hpdn.
      destruct (root_step _ _ _ _ _ _ r Hin Hsy) as
        [(_ & _ & _ & Hno)|[(He & _)|[(He & _)|[(q & pd0 & (id' & Hw' & _) & Hpd0 & Hc)|(id' & q & bs & Hw' & He & Hne & _)]]]].
      - exfalso. destruct (Hno _ _ Hw) as [Hn1 Hn2]. destruct Hev as [Hev|Hev]; [done|]. by eapply Hn2.
      - rewrite He in Hev. by destruct Hev.
      - rewrite He in Hev. by destruct Hev.
      - destruct (inv_unique _ _ _ _ _ _ Hin Hw Hw') as [<- <-].
        destruct Hc as [(_ & _ & Hnn & _)|(_ & _ & Hpp & _)]; [congruence|]. rewrite Hpp. eexists; split; [done|]. cbn. set_solver.
      - destruct (inv_unique _ _ _ _ _ _ Hin Hw Hw') as [<- <-]. rewrite He in Hev. destruct Hev as [|[= ->]]; done. }
    assert (la ++ y :: lb = (la ++ [y]) ++ lb) as Hl by (by rewrite <- app_assoc). rewrite Hl in Hs'.
    destruct (avoid_run _ _ _ _ _ _ _ Hs' Hstart) as [(pd1 & Hpd1 & Hp1)|(l1 & z & l2 & -> & Hz1 & Hz2)].
    - exists lb, x, []. split; [done|]. split. { intros Hx. rewrite Hx in Hp. by apply elem_of_nil in Hp. }
      rewrite Hpd in Hpd1. injection Hpd1 as <-. intros q Hq. destruct Hor as [Hor|Hor]; [done|].
      apply Hf. by apply Hor.
    - exists l1, z, (l2 ++ [x]). split; [by rewrite <- app_assoc|]. split; [done|].
      intros q Hq. destruct (Hz2 q Hq) as (y' & Hy' & Hf'). exists y'. split; [|done].
      by rewrite <- app_assoc in Hy'.
  Qed.

  (** ** Retrying *)
  Lemma C49_fetch_pf n r pick m acts :
    reached root_of n -> ~ tracked n r -> sv_connected (nt_srv n) <> ∅ ->
    step root_of pick true n (EvFetch r) = Some (m, acts) ->
    exists id p, acts = [SendRoot id p r] /\ p ∈ sv_connected (nt_srv n) /\ waiting_root m id p r.
  Proof using.
    intros Hre Hn Hc Hst. assert (pend n r = None) as Hn0.
    { unfold tracked in Hn. unfold pend. destruct (sv_pending _ !! r); [|done]. exfalso. eauto. }
    unfold step, handle_fetch_block in Hst. unfold pend in Hn0. rewrite Hn0 in Hst.
    destruct (fetch_block_from_peer _ (nt_srv n) r) as [[s' a'] ok'] eqn:Hf. cbn in Hst. injection Hst as <- <-.
    apply fetch_spec in Hf as (_ & _ & _ & _ & [(_ & _ & _ & _ & _ & [|])|(_ & id & p & Hid & -> & Hin & _)]); [done|done|].
    exists id, p. split_and!; try done. unfold waiting_root. cbn. by rewrite lookup_insert.
  Qed.

  Lemma C49_retry_pf n id p r pick ok ev m acts :
    reached root_of n -> waiting_root n id p r -> step root_of pick ok n ev = Some (m, acts) ->
    (ev = EvFailure id \/ ev = EvBlocks id [] \/ exists b bs, ev = EvBlocks id bs /\ b ∈ bs /\ root_of b = r) ->
    ~ tracked m r \/ (exists ms, RetryAfter r ms ∈ acts /\ r ∈ nt_timers m).
  Proof using.
    intros Hre Hw Hst Hev. pose proof (reached_inv _ _ Hre) as Hi.
    destruct Hev as [Hev|[Hev|(b & bs & -> & Hb & Hrb)]].
    3:{ left. exact (proj1 (C48_success_pf _ _ _ _ _ _ _ _ _ _ Hre Hw Hb Hrb Hst)). }
    all: destruct (root_step _ _ _ _ _ _ r Hi Hst) as
      [(_ & _ & _ & Hno)|[(He & _)|[(He & _)|[(q & pd0 & Hr & Hpd0 & Hc)|(id' & q & bs & Hw' & He & Hne & _)]]]]; try congruence.
    all: try (exfalso; destruct (Hno _ _ Hw) as [Hn1 Hn2]; first [done|by eapply Hn2]).
    all: destruct Hc as [(_ & -> & Hn & _)|(_ & -> & _ & Ht & _)];
      [left; intros [pd Hx]; unfold pend in Hn; congruence|right; eexists; split; [left|done]].
  Qed.

  Lemma C49_mismatch_pf n id p r pick ok bs m acts :
    reached root_of n -> waiting_root n id p r -> bs <> [] -> (forall b, b ∈ bs -> root_of b <> r) ->
    step root_of pick ok n (EvBlocks id bs) = Some (m, acts) ->
    acts = [] /\ tracked m r /\ quiet m r.
  Proof using.
    intros Hi%reached_inv Hw Hne Hall Hst.
    destruct (root_step _ _ _ _ _ _ r Hi Hst) as
      [(_ & _ & _ & Hno)|[(? & _)|[(? & _)|[(q & pd0 & (id' & Hw' & Hev) & _)|(id' & q & bs' & Hw' & [= <- <-] & _ & Hq & _ & _ & _ & Hno)]]]]; try done.
    - exfalso. destruct (Hno _ _ Hw) as [_ Hn2]. by eapply Hn2.
    - exfalso. destruct Hev as [|[= -> ->]]; done.
    - destruct (Hno Hall) as [Hp ->]. split_and!; try done. destruct (io_live _ _ _ (proj2 (proj2 Hi)) _ _ _ Hw) as [pd Hx].
      exists pd. unfold pend in Hp. by rewrite Hp.
  Qed.

  Lemma C49_stuck_pf n r l m :
    reached root_of n -> tracked n r -> quiet n r -> run root_of n l m ->
    requests r (acts_of l) = [] /\ tracked m r /\ quiet m r.
  Proof using.
    intros Hre Ht Hq Hrun. revert Hre Ht Hq. induction Hrun as [n|n pick ok ev n1 acts l m Hst Hrun IH]; intros Hre Ht Hq; [done|].
    assert (requests r acts = [] /\ tracked n1 r /\ quiet n1 r) as (H1 & H2 & H3).
    { pose proof (reached_inv _ _ Hre) as Hi. destruct Ht as [pd Hpd]. destruct Hq as [Hq1 Hq2].
      destruct (root_step _ _ _ _ _ _ r Hi Hst) as
        [((R1 & R2 & R3 & R4 & R5) & _)|[(_ & Hn & _)|[(_ & Hx & _)|[(q & pd0 & (id & Hw & _) & _)|(id & q & bs & Hw & _)]]]].
      - split_and!; [done| |]. + exists pd. unfold pend in R1. by rewrite R1. + split; [|by rewrite R5]. intros id p Hx%R4. by eapply Hq1.
      - unfold pend in Hn. congruence.
      - done.
      - exfalso. by eapply Hq1.
      - exfalso. by eapply Hq1. }
    rewrite acts_cons, requests_app. cbn [en_acts]. rewrite H1. apply IH; [|done|done]. by eapply reached_step.
  Qed.
End Root.
