(** Range sync: proofs. *)
From Verif Require Import SyncProofs.
Local Open Scope N_scope.

Definition nosend (acts : list Action) : Prop := forall id p a c, SendRange id p a c ∉ acts.
Definition no_wait (n : Net) : Prop := forall id p a e, ~ waiting_range n id p a e.
Definition same_wait (n n' : Net) : Prop := forall id p a e, waiting_range n' id p a e <-> waiting_range n id p a e.
Definition fail_opt (r : RangeSync) (p : N) : option RangeSync :=
  if decide (rs_peers (fail_peer r p) = ∅) then None else Some (fail_peer r p).

(** The outcome of asking for the next batch of [r]. *)
Definition requested (pick : N) (ok : bool) (n n' : Net) (r : RangeSync) (acts : list Action) : Prop :=
  (next_batch pick r = None /\ sv_range (nt_srv n') = Some r /\ nosend acts /\ same_wait n n') \/
  (exists p a e, next_batch pick r = Some (p, (a, e)) /\ ok = false /\ sv_range (nt_srv n') = fail_opt r p /\
     nosend acts /\ no_wait n') \/
  (exists p a e, next_batch pick r = Some (p, (a, e)) /\ ok = true /\
     sv_range (nt_srv n') = Some (mkRS (rs_start r) (rs_end r) (rs_peers r) true) /\
     ((forall id q a' c', SendRange id q a' c' ∈ acts <-> id = nt_next n /\ q = p /\ a' = a /\ c' = e - a) /\
      batches acts = [(a, e - a)]) /\
     (forall id q a' e', waiting_range n' id q a' e' <-> id = nt_next n /\ q = p /\ a' = a /\ e' = e - 1)).

Definition status_range (n : Net) (p h oh : N) : RangeSync :=
  match sv_range (nt_srv n) with
  | Some r => merge_peer r p h (sat_add (sat_add oh 1) (N.min (h - oh) MAX_SYNC_RANGE))
  | None => rs_new (sat_add oh 1) (sat_add (sat_add oh 1) (N.min (h - oh) MAX_SYNC_RANGE)) p h
  end.

Lemma requested_pf pick (ok : bool) n s s' acts r dl :
  inv_range (nt_live n) (Some r) ->
  inv_ids (nt_live n) (sv_out s) (nt_next n) ->
  sv_range s = Some r ->
  request_next_range_batch (mkOc pick (if ok then Some (nt_next n) else None)) s = (s', acts) ->
  requested pick ok n (take_all n (s', map Deliver dl ++ acts)).1 r (map Deliver dl ++ acts).
Proof.
  intros Hr [Hi1 Hi2] Hs Hq. apply reqnext_spec in Hq as (_ & _ & _ & Hq). unfold requested. rewrite take_all_deliver.
  assert (forall id p a c, SendRange id p a c ∈ map Deliver dl ++ acts <-> SendRange id p a c ∈ acts) as Hdl.
  { intros id p a c. rewrite elem_of_app. split; [|by right]. intros [Hx|]; [|done].
    apply elem_of_list_In, in_map_iff in Hx as (? & ? & _). done. }
  destruct Hq as [(-> & -> & Hn)|[(r' & p & a & e & Hrg & Hnb & Hoc & -> & ->)|
    (r' & p & a & e & id & Hrg & Hnb & Hoc & -> & Hout & Hrg')]]; cbn [oc_pick oc_sent] in *.
  - left. split_and!; [by apply Hn|done| |done]. intros id p a c Hx. apply Hdl in Hx. by apply elem_of_nil in Hx.
  - rewrite Hs in Hrg. injection Hrg as <-. right; left. exists p, a, e. split_and!; [done|by destruct ok| | |].
    + cbn. unfold fail_range_request, fail_opt. rewrite Hs. done.
    + intros id q a' c Hx. apply Hdl in Hx. by apply elem_of_nil in Hx.
    + intros id q a' e' Hx. cbn in Hx. eapply (no_range_flight _ _ Hr); [|exact Hx].
      exact (proj1 (next_batch_spec _ _ _ _ _ Hnb)).
  - rewrite Hs in Hrg. injection Hrg as <-. right; right. exists p, a, e.
    destruct ok; [|done]. injection Hoc as <-. split; [done|]. split; [done|]. split; [by cbn|]. split; [split|].
    2:{ clear. induction dl; [done|]. exact IHdl. }
    + intros id q a' c'. rewrite Hdl, elem_of_list_singleton. split; [by intros [= -> -> -> ->]|].
      intros (-> & -> & -> & ->). done.
    + pose proof (next_batch_spec _ _ _ _ _ Hnb) as (Hf & _ & Hlt & _).
      intros id q a' e'. unfold waiting_range. cbn. destruct (decide (id = nt_next n)) as [->|Hne].
      * rewrite lookup_insert. split; [intros [= -> -> <-]; split_and!; try done; lia|].
        intros (_ & -> & -> & ->). repeat f_equal. lia.
      * rewrite lookup_insert_ne by done. split; [|by intros [? _]]. intros Hx.
        exfalso. by eapply (no_range_flight _ _ Hr).
Qed.

Section Range.
  Context (root_of : SignedBlock -> H256).

  Definition untouched (n : Net) (ev : Event) (n' : Net) (acts : list Action) : Prop :=
    sv_range (nt_srv n') = sv_range (nt_srv n) /\ nosend acts /\ same_wait n n' /\
    (forall p h oh, ev = EvStatus p h oh -> h <= oh) /\
    (forall id p a e, waiting_range n id p a e -> ev <> EvFailure id /\ forall bs, ev <> EvBlocks id bs).

  Lemma range_step pick ok n ev n' acts :
    inv n -> step root_of pick ok n ev = Some (n', acts) ->
    untouched n ev n' acts \/
    (exists p h oh, ev = EvStatus p h oh /\ oh < h /\ h < two64 /\
       inv_range (nt_live n) (Some (status_range n p h oh)) /\
       requested pick ok n n' (status_range n p h oh) acts) \/
    (exists id p a e r bs, ev = EvBlocks id bs /\ bs <> [] /\ waiting_range n id p a e /\
       sv_range (nt_srv n) = Some r /\ rs_start r = a /\ a <= e /\ e < rs_end r /\ e < two64 - 1 /\ rs_end r <= two64 - 1 /\
       ((sv_range (nt_srv n') = None /\ nosend acts /\ no_wait n' /\
         (sv_chain (nt_srv n) = false \/ rs_end r <= e + 1 \/ rs_peers (complete_batch r e) = ∅)) \/
        (exists n1, nt_next n1 = nt_next n /\ no_wait n1 /\ sv_chain (nt_srv n) = true /\ e + 1 < rs_end r /\
          rs_peers (complete_batch r e) <> ∅ /\
          requested pick ok n1 n' (complete_batch r e) acts))) \/
    (exists id p a e r, (ev = EvFailure id \/ ev = EvBlocks id []) /\ waiting_range n id p a e /\
       sv_range (nt_srv n) = Some r /\ rs_start r = a /\ a <= e /\ e < rs_end r /\
       sv_range (nt_srv n') = fail_opt r p /\ acts = [] /\ no_wait n').
  Proof using.
    intros Hinv Hst. pose proof Hinv as (Hi & Hr & Ho).
    unfold step in Hst. set (oc := mkOc pick _) in *. destruct ev as [|p first|p last|r|r|p h oh|id bs|id].
    - left. injection Hst as <- <-. split_and!; try done. intros ? ? ? ? Hx. by apply elem_of_nil in Hx.
    - left. destruct first; injection Hst as <- <-; (split_and!; try done); intros ? ? ? ? Hx.
      + apply elem_of_list_singleton in Hx. done.
      + by apply elem_of_nil in Hx.
    - left. destruct last; injection Hst as <- <-; (split_and!; try done); intros ? ? ? ? Hx; by apply elem_of_nil in Hx.
    - left. unfold handle_fetch_block in Hst. destruct (sv_pending (nt_srv n) !! r).
      { injection Hst as <- <-. split_and!; try done. intros ? ? ? ? Hx. by apply elem_of_nil in Hx. }
      destruct (fetch_block_from_peer oc (nt_srv n) r) as [[s' a'] ok'] eqn:Hf. cbn in Hst. injection Hst as <- <-.
      apply fetch_spec in Hf as (H1 & H2 & H3 & _ & Hf).
      destruct Hf as [(-> & -> & _)|(-> & id & p & Hid & -> & _)]; split_and!; try done.
      + intros ? ? ? ? Hx. by apply elem_of_nil in Hx.
      + intros ? ? ? ? Hx. apply elem_of_list_singleton in Hx. done.
      + intros id' q a e. unfold waiting_range. cbn. destruct (decide (id' = id)) as [->|]; [|by rewrite lookup_insert_ne].
        rewrite lookup_insert. split; [done|]. intros Hx. exfalso. apply (proj1 Hi) in Hx. subst oc; cbn in Hid.
        destruct ok; [injection Hid as <-; lia|done].
    - left. destruct (remove_one r (nt_timers n)) as [t|] eqn:Ht; [|done].
      unfold handle_retry_block_fetch in Hst. destruct (sv_pending (nt_srv n) !! r) as [pd|] eqn:Hpd.
      2:{ injection Hst as <- <-. split_and!; try done. intros ? ? ? ? Hx. by apply elem_of_nil in Hx. }
      destruct (fetch_block_from_peer oc (nt_srv n) r) as [[s' a'] ok'] eqn:Hf.
      apply fetch_spec in Hf as (H1 & H2 & H3 & _ & Hf).
      destruct Hf as [(-> & -> & _)|(-> & id & p & Hid & -> & _)]; injection Hst as <- <-; split_and!; try done.
      + intros ? ? ? ? Hx. by apply elem_of_nil in Hx.
      + intros ? ? ? ? Hx. apply elem_of_list_singleton in Hx. done.
      + intros id' q a e. unfold waiting_range. cbn. destruct (decide (id' = id)) as [->|]; [|by rewrite lookup_insert_ne].
        rewrite lookup_insert. split; [done|]. intros Hx. exfalso. apply (proj1 Hi) in Hx. subst oc; cbn in Hid.
        destruct ok; [injection Hid as <-; lia|done].
    - destruct (two64 <=? h) eqn:H64; [done|]. unfold handle_status_response in Hst. destruct (h <=? oh) eqn:Hle.
      { left. injection Hst as <- <-. split_and!; try done.
        - intros ? ? ? ? Hx. by apply elem_of_nil in Hx.
        - intros ? ? ? [= <- <- <-]. lia. }
      right; left. exists p, h, oh. fold (status_range n p h oh) in Hst.
      assert (inv_range (nt_live n) (Some (status_range n p h oh))) as Hrr.
      { unfold status_range. destruct (sv_range (nt_srv n)) as [r|] eqn:Hrg.
        + apply merge_range; [done|]. unfold sat_add. lia.
        + apply no_range_idle.
          * intros id q a e Hx. destruct (ir_live _ _ Hr _ _ _ _ Hx) as (? & ? & _). done.
          * intros r [= <-]. cbn. split_and!; [done|unfold sat_add; lia|]. intros q h' Hq'.
            apply lookup_singleton_Some in Hq' as [<- <-]. unfold sat_add. lia. }
      split_and!; [done|lia|lia|done|].
      destruct (request_next_range_batch oc _) as [s' a'] eqn:Hq. injection Hst as <- <-.
      apply (requested_pf pick ok n (set_range (nt_srv n) (Some (status_range n p h oh))) s' a' _ []); done.
    - destruct (nt_live n !! id) as [[p k]|] eqn:Hl; [|done].
      destruct (inv_delete _ _ _ _ Hinv Hl) as [Hi' Hout]. unfold handle_blocks in Hst. rewrite Hout in Hst.
      destruct k as [r|a e].
      + left. assert (same_wait n (mkNet (nt_srv n) (delete id (nt_live n)) (nt_timers n) (nt_next n))) as Hsw.
        { intros id' q a e. unfold waiting_range. cbn. rewrite lookup_delete_Some. split; [naive_solver|].
          intros Hx. split; [|done]. congruence. }
        assert (forall id' p' a e, waiting_range n id' p' a e -> EvBlocks id bs <> EvFailure id' /\
          forall bs', EvBlocks id bs <> EvBlocks id' bs') as Hev.
        { intros id' p' a e Hx. split; [done|]. intros bs' [= -> ->]. unfold waiting_range in Hx. congruence. }
        unfold handle_blocks_by_root_response in Hst. destruct bs as [|b bs].
        * destruct (handle_fetch_failure _ r p) as [s' a'] eqn:Hf. injection Hst as <- <-.
          apply failure_spec in Hf as (F1 & F2 & F3 & F4 & F5 & Hf).
          destruct Hf as [(_ & -> & _)|(pd & _ & [(_ & -> & _)|(_ & -> & _)])]; split_and!; try done;
            intros ? ? ? ? Hx; first [by apply elem_of_nil in Hx|by apply elem_of_list_singleton in Hx].
        * destruct (root_loop root_of _ r (b :: bs)) as [s' a'] eqn:Hf.
          apply root_loop_spec in Hf as (F1 & F2 & F3 & F4 & F5 & F6 & F7 & F8).
          assert (forall x, x ∈ a' -> exists b, x = Deliver b) as Hdel by (intros x Hx; apply F6 in Hx; naive_solver).
          injection Hst as <- <-. unfold untouched. rewrite (fold_delivers a') by done. split_and!; try done.
          intros ? ? ? ? Hx. apply Hdel in Hx as [? ?]. done.
      + right; right. destruct (inv_delete_range _ _ _ _ _ Hinv Hl) as (Hnr & Ho' & r & Hrg & Hsa & Hae & He & Hk & H64 & Hend).
        unfold handle_blocks_by_range_response in Hst. destruct bs as [|b bs].
        * right. injection Hst as <- <-. exists id, p, a, e, r. split_and!; try done; [by right|].
          cbn. unfold fail_range_request, fail_opt. cbn [set_out sv_range]. rewrite Hrg. done.
        * left. exists id, p, a, e, r, (b :: bs). split_and!; try done.
          destruct (sv_chain _) eqn:Hch; cbn [set_out sv_chain] in Hch.
          2:{ left. injection Hst as <- <-. split_and!; try done; [|by left]. intros ? ? ? ? Hx. by apply elem_of_nil in Hx. }
          cbn [set_out sv_range] in Hst. rewrite Hrg in Hst.
          destruct ((_ <=? _) || _) eqn:Hc.
          -- left. injection Hst as <- <-. rewrite fold_deliver. split_and!; try done.
             ++ intros ? ? ? ? Hx. apply elem_of_list_In, in_map_iff in Hx as (? & ? & _). done.
             ++ right. apply orb_true_iff in Hc as [Hc|Hc].
                ** left. cbn in Hc. unfold sat_add in Hc. lia.
                ** right. by apply bool_decide_eq_true in Hc.
          -- right. destruct (request_next_range_batch oc _) as [s' a'] eqn:Hq. injection Hst as <- <-.
             apply orb_false_iff in Hc as [Hc1 Hc2]. apply bool_decide_eq_false in Hc2. cbn in Hc1. unfold sat_add in Hc1.
             exists (mkNet (nt_srv n) (delete id (nt_live n)) (nt_timers n) (nt_next n)). split_and!; try done; [lia|].
             eapply (requested_pf pick ok _ (set_range (set_out (nt_srv n) (delete id (sv_out (nt_srv n)))) (Some (complete_batch r e))));
               [|exact Hi'|done|exact Hq].
             cbn. apply no_range_idle; [done|]. intros r' [= <-]. cbn. split_and!; [done|done|].
             intros q h' Hq'. by apply map_filter_lookup_Some in Hq' as [_ Hq'].
    - destruct (nt_live n !! id) as [[p k]|] eqn:Hl; [|done].
      destruct (inv_delete _ _ _ _ Hinv Hl) as [Hi' Hout]. unfold handle_outbound_failure in Hst. rewrite Hout in Hst.
      destruct k as [r|a e].
      + left. assert (same_wait n (mkNet (nt_srv n) (delete id (nt_live n)) (nt_timers n) (nt_next n))) as Hsw.
        { intros id' q a e. unfold waiting_range. cbn. rewrite lookup_delete_Some. split; [naive_solver|].
          intros Hx. split; [|done]. congruence. }
        assert (forall id' p' a e, waiting_range n id' p' a e -> EvFailure id <> EvFailure id' /\
          forall bs', EvFailure id <> EvBlocks id' bs') as Hev.
        { intros id' p' a e Hx. split; [|done]. intros [= ->]. unfold waiting_range in Hx. congruence. }
        destruct (handle_fetch_failure _ r p) as [s' a'] eqn:Hf. injection Hst as <- <-.
        apply failure_spec in Hf as (F1 & F2 & F3 & F4 & F5 & Hf).
        destruct Hf as [(_ & -> & _)|(pd & _ & [(_ & -> & _)|(_ & -> & _)])]; split_and!; try done;
            intros ? ? ? ? Hx; first [by apply elem_of_nil in Hx|by apply elem_of_list_singleton in Hx].
      + right; right; right. destruct (inv_delete_range _ _ _ _ _ Hinv Hl) as (Hnr & Ho' & r & Hrg & Hsa & Hae & He & Hk & H64 & Hend).
        injection Hst as <- <-. exists id, p, a, e, r. split_and!; try done; [by left|].
        cbn. unfold fail_range_request, fail_opt. cbn [set_out sv_range]. rewrite Hrg. done.
  Qed.

  (** ** Theorems *)
  Lemma run_snoc n l x m :
    run root_of n (l ++ [x]) m -> exists k pick, run root_of n l k /\ en_pre x = k /\
      step root_of pick (en_ok x) k (en_event x) = Some (m, en_acts x).
  Proof using.
    revert n. induction l as [|y l IH]; intros n Hr.
    - inversion Hr as [|? pick ok ev n' acts l0 m0 Hst Hrun]; subst. inversion Hrun; subst.
      exists n, pick. split_and!; [constructor|done|done].
    - inversion Hr as [|? pick ok ev n' acts l0 m0 Hst Hrun]; subst.
      destruct (IH _ Hrun) as (k & pk & Hk & He & Hs). exists k, pk. split_and!; [|done|done].
      by econstructor.
  Qed.
  Lemma run_app n l k l' m : run root_of n l k -> run root_of k l' m -> run root_of n (l ++ l') m.
  Proof using. induction 1; [done|]. intros. cbn. econstructor; eauto. Qed.
  Lemma reached_run n l m : reached root_of n -> run root_of n l m -> reached root_of m.
  Proof using. intros [l0 H0] H. exists (l0 ++ l). by eapply run_app. Qed.
  Lemma reached_step n pick ok ev n' acts :
    reached root_of n -> step root_of pick ok n ev = Some (n', acts) -> reached root_of n'.
  Proof using. intros H Hs. eapply reached_run; [done|]. econstructor; [done|constructor]. Qed.
  Lemma happened_app ev l l' : happened ev (l ++ l') <-> happened ev l \/ happened ev l'.
  Proof using. unfold happened. setoid_rewrite elem_of_app. naive_solver. Qed.

  Lemma C47_single_pf n id p a e id' p' a' e' :
    reached root_of n -> waiting_range n id p a e -> waiting_range n id' p' a' e' ->
    id = id' /\ p = p' /\ a = a' /\ e = e'.
  Proof using.
    intros Hr%reached_inv H H'. destruct Hr as (_ & Hr & _).
    assert (id = id') as -> by exact (ir_one _ _ Hr _ _ _ _ _ _ _ _ H H').
    unfold waiting_range in *. rewrite H in H'. by simplify_eq.
  Qed.

  (** What the history of the node says about the range being synced. *)
  Definition hist (l : list Entry) (n : Net) : Prop := forall r, sv_range (nt_srv n) = Some r ->
    (exists p h oh, happened (EvStatus p h oh) l /\ oh < h /\ oh < rs_start r) /\
    (forall p h, rs_peers r !! p = Some h -> exists oh, happened (EvStatus p h oh) l) /\
    (exists p h oh, happened (EvStatus p h oh) l /\ oh < h /\ rs_end r <= N.min h (oh + 65536) + 1).

  Lemma hist_weaken r r' l l' :
    ((exists p h oh, happened (EvStatus p h oh) l /\ oh < h /\ oh < rs_start r) /\
    (forall p h, rs_peers r !! p = Some h -> exists oh, happened (EvStatus p h oh) l) /\
    (exists p h oh, happened (EvStatus p h oh) l /\ oh < h /\ rs_end r <= N.min h (oh + 65536) + 1)) ->
    (forall ev, happened ev l -> happened ev l') ->
    rs_start r <= rs_start r' -> rs_end r' <= rs_end r -> rs_peers r' ⊆ rs_peers r ->
    ((exists p h oh, happened (EvStatus p h oh) l' /\ oh < h /\ oh < rs_start r') /\
    (forall p h, rs_peers r' !! p = Some h -> exists oh, happened (EvStatus p h oh) l') /\
    (exists p h oh, happened (EvStatus p h oh) l' /\ oh < h /\ rs_end r' <= N.min h (oh + 65536) + 1)).
  Proof using.
    intros ((p & h & oh & H1 & H2 & H3) & Hp & (p' & h' & oh' & K1 & K2 & K3)) Hl Hs He Hsub. split_and!.
    - exists p, h, oh. split_and!; [by apply Hl|done|lia].
    - intros q hq Hq. eapply lookup_weaken in Hq; [|exact Hsub]. destruct (Hp _ _ Hq) as [o Ho]. exists o. by apply Hl.
    - exists p', h', oh'. split_and!; [by apply Hl|done|lia].
  Qed.
  Lemma fail_opt_some r p r' : fail_opt r p = Some r' -> r' = fail_peer r p.
  Proof using. unfold fail_opt. destruct (decide _); [done|]. by intros [= <-]. Qed.
  Lemma fail_peer_sub r p : rs_peers (fail_peer r p) ⊆ rs_peers r.
  Proof using. cbn. etrans; [apply map_filter_subseteq|]. apply delete_subseteq. Qed.
  Lemma complete_sub r e : rs_peers (complete_batch r e) ⊆ rs_peers r.
  Proof using. cbn. apply map_filter_subseteq. Qed.

  Lemma hist_requested pick ok n n' r acts l :
    requested pick ok n n' r acts ->
    ((exists p h oh, happened (EvStatus p h oh) l /\ oh < h /\ oh < rs_start r) /\
    (forall p h, rs_peers r !! p = Some h -> exists oh, happened (EvStatus p h oh) l) /\
    (exists p h oh, happened (EvStatus p h oh) l /\ oh < h /\ rs_end r <= N.min h (oh + 65536) + 1)) ->
    hist l n'.
  Proof using.
    intros [(_ & H & _)|[(p & a & e & _ & _ & H & _)|(p & a & e & _ & _ & H & _)]] Hh r' Hr'; rewrite H in Hr'.
    - injection Hr' as <-. done.
    - apply fail_opt_some in Hr' as ->. eapply hist_weaken; [exact Hh|done|cbn; lia|cbn; lia|apply fail_peer_sub].
    - injection Hr' as <-. done.
  Qed.

  Lemma hist_status n p h oh l :
    hist l n -> oh < h -> h < two64 -> happened (EvStatus p h oh) l ->
    ((exists p' h' oh', happened (EvStatus p' h' oh') l /\ oh' < h' /\ oh' < rs_start (status_range n p h oh)) /\
    (forall p' h', rs_peers (status_range n p h oh) !! p' = Some h' -> exists oh', happened (EvStatus p' h' oh') l) /\
    (exists p' h' oh', happened (EvStatus p' h' oh') l /\ oh' < h' /\
       rs_end (status_range n p h oh) <= N.min h' (oh' + 65536) + 1)).
  Proof using.
    intros Hh Hlt H64 Hev. unfold status_range. destruct (sv_range (nt_srv n)) as [r|] eqn:Hr.
    - destruct (Hh r Hr) as ((p1 & h1 & oh1 & A1 & A2 & A3) & Hp & (p2 & h2 & oh2 & B1 & B2 & B3)). split_and!.
      + exists p1, h1, oh1. done.
      + intros q hq Hq. cbn in Hq. apply map_filter_lookup_Some in Hq as [Hq _].
        destruct (decide (q = p)) as [->|Hne].
        * rewrite lookup_insert in Hq. injection Hq as <-. eauto.
        * rewrite lookup_insert_ne in Hq by done. eauto.
      + destruct (N.le_gt_cases (sat_add (sat_add oh 1) (N.min (h - oh) MAX_SYNC_RANGE)) (rs_end r)).
        * exists p2, h2, oh2. split_and!; try done. cbn. lia.
        * exists p, h, oh. split_and!; try done. cbn. unfold sat_add, MAX_SYNC_RANGE, MAX_REQUEST_BLOCKS in *. lia.
    - split_and!.
      + exists p, h, oh. split_and!; try done. cbn. unfold sat_add. lia.
      + intros q hq Hq. cbn in Hq. apply lookup_singleton_Some in Hq as [<- <-]. eauto.
      + exists p, h, oh. split_and!; try done. cbn. unfold sat_add, MAX_SYNC_RANGE, MAX_REQUEST_BLOCKS. lia.
  Qed.

  Lemma hist_step pick ok n ev n' acts l :
    inv n -> step root_of pick ok n ev = Some (n', acts) -> hist l n -> hist (l ++ [mkEntry n ev ok acts]) n'.
  Proof using.
    intros Hinv Hst Hh.
    assert (forall ev', happened ev' l -> happened ev' (l ++ [mkEntry n ev ok acts])) as Hm.
    { intros ev' H. apply happened_app. by left. }
    assert (happened ev (l ++ [mkEntry n ev ok acts])) as Hev.
    { apply happened_app. right. exists (mkEntry n ev ok acts). split; [left|done]. }
    assert (hist (l ++ [mkEntry n ev ok acts]) n) as Hh'.
    { intros r Hr. specialize (Hh r Hr). eapply hist_weaken; [exact Hh|done|lia|lia|done]. }
    destruct (range_step _ _ _ _ _ _ Hinv Hst) as [(H1 & _)|[(p & h & oh & -> & Hlt & H64 & _ & Hq)|
      [(id & p & a & e & r & bs & -> & _ & _ & Hr & Hs & _ & _ & _ & _ & Hc)|(id & p & a & e & r & _ & _ & Hr & _ & _ & _ & Hf & _)]]].
    - intros r Hr. rewrite H1 in Hr. by apply Hh'.
    - eapply hist_requested; [exact Hq|]. by apply hist_status.
    - destruct Hc as [(Hn & _)|(n1 & _ & _ & _ & _ & _ & Hq)]; [intros r' Hr'; congruence|].
      eapply hist_requested; [exact Hq|]. eapply hist_weaken; [exact (Hh' r Hr)|done|cbn; lia|cbn; lia|apply complete_sub].
    - intros r' Hr'. rewrite Hf in Hr'. apply fail_opt_some in Hr' as ->.
      eapply hist_weaken; [exact (Hh' r Hr)|done|cbn; lia|cbn; lia|apply fail_peer_sub].
  Qed.
  Lemma hist_run n l m : run root_of n l m -> forall l0, inv n -> hist l0 n -> hist (l0 ++ l) m.
  Proof using.
    induction 1 as [n|n pick ok ev n' acts l m Hst Hrun IH]; intros l0 Hi Hh; [by rewrite app_nil_r|].
    replace (l0 ++ mkEntry n ev ok acts :: l) with ((l0 ++ [mkEntry n ev ok acts]) ++ l) by by rewrite <- app_assoc.
    apply IH; [by eapply step_inv|]. by eapply hist_step.
  Qed.

  Lemma requested_send pick ok n n' r acts id p a c :
    requested pick ok n n' r acts -> SendRange id p a c ∈ acts ->
    exists e, next_batch pick r = Some (p, (a, e)) /\ c = e - a.
  Proof using.
    intros [(_ & _ & H & _)|[(q & b & e & _ & _ & _ & H & _)|(q & b & e & Hn & _ & _ & H & _)]] Hx.
    - by apply H in Hx.
    - by apply H in Hx.
    - apply H in Hx as (-> & -> & -> & ->). eauto.
  Qed.

  Lemma C47_batch_pf l x m id p a c :
    run root_of net0 (l ++ [x]) m -> SendRange id p a c ∈ en_acts x ->
    1 <= c <= 1024 /\
    (exists h oh, happened (EvStatus p h oh) (l ++ [x]) /\ a + c - 1 <= h) /\
    (exists q h oh, happened (EvStatus q h oh) (l ++ [x]) /\ oh < h /\ oh < a) /\
    (exists q h oh, happened (EvStatus q h oh) (l ++ [x]) /\ oh < h /\ a + c - 1 <= N.min h (oh + 65536)).
  Proof using.
    intros Hrun Hin. destruct (run_snoc _ _ _ _ Hrun) as (k & pick & Hk & He & Hst).
    assert (inv k) as Hinv by (eapply run_inv; [exact Hk|apply inv_net0]).
    assert (hist l k) as Hh. { apply (hist_run _ _ _ Hk [] inv_net0). intros r. done. }
    assert (forall ev', happened ev' l -> happened ev' (l ++ [x])) as Hm.
    { intros ev' H. apply happened_app. by left. }
    assert (happened (en_event x) (l ++ [x])) as Hev.
    { apply happened_app. right. exists x. split; [left|done]. }
    assert (exists r e, next_batch pick r = Some (p, (a, e)) /\ c = e - a /\
      ((exists p h oh, happened (EvStatus p h oh) (l ++ [x]) /\ oh < h /\ oh < rs_start r) /\
      (forall p h, rs_peers r !! p = Some h -> exists oh, happened (EvStatus p h oh) (l ++ [x])) /\
      (exists p h oh, happened (EvStatus p h oh) (l ++ [x]) /\ oh < h /\ rs_end r <= N.min h (oh + 65536) + 1)))
      as (r & e & Hnb & -> & (q1 & h1 & oh1 & A1 & A2 & A3) & Hp & (q2 & h2 & oh2 & B1 & B2 & B3)).
    { destruct (range_step _ _ _ _ _ _ Hinv Hst) as [(_ & H1 & _)|[(q & h & oh & Hx & Hlt & H64 & _ & Hq)|
        [(id' & q & b & e & r & bs & Hx & _ & _ & Hr & Hs & _ & _ & _ & _ & Hc)|(id' & q & b & e & r & _ & _ & _ & _ & _ & _ & _ & Ha & _)]]].
      - by apply H1 in Hin.
      - destruct (requested_send _ _ _ _ _ _ _ _ _ _ Hq Hin) as (e & Hnb & ->).
        eexists _, e. split_and!; [exact Hnb|done|..]; rewrite Hx in Hev;
        apply (hist_status k q h oh (l ++ [x])); try done; intros r Hr; (eapply hist_weaken; [exact (Hh r Hr)|done|lia|lia|done]).
      - destruct Hc as [(_ & Hn & _)|(n1 & _ & _ & _ & _ & _ & Hq)]; [by apply Hn in Hin|].
        destruct (requested_send _ _ _ _ _ _ _ _ _ _ Hq Hin) as (e' & Hnb & ->).
        exists (complete_batch r e), e'. split; [exact Hnb|]. split; [done|].
        eapply hist_weaken; [exact (Hh r Hr)|done|cbn; lia|cbn; lia|apply complete_sub].
      - rewrite Ha in Hin. by apply elem_of_nil in Hin. }
    destruct (next_batch_spec _ _ _ _ _ Hnb) as (_ & -> & N1 & N2 & N3 & N4 & h & P1 & P2 & P3 & _).
    destruct (Hp _ _ P1) as [oh Hoh]. split_and!; [lia|lia|..].
    - exists h, oh. split; [done|lia].
    - exists q1, h1, oh1. done.
    - exists q2, h2, oh2. split_and!; [done|done|lia].
  Qed.

  (** A range being synced only grows towards its end. *)
  Lemma grow_step pick ok n ev n' acts a t a' t' :
    inv n -> step root_of pick ok n ev = Some (n', acts) -> sync_range n a t -> sync_range n' a' t' -> a <= a' /\ t <= t'.
  Proof using.
    intros Hinv Hst (r & Hr & <- & <-) (r' & Hr' & <- & <-).
    assert (forall pick ok n0 n' r0 acts, requested pick ok n0 n' r0 acts -> sv_range (nt_srv n') = Some r' ->
      rs_start r' = rs_start r0 /\ rs_end r' = rs_end r0) as Hreq.
    { clear. intros pick ok n0 n' r0 acts [(_ & H & _)|[(q & b & e & _ & _ & H & _)|(q & b & e & _ & _ & H & _)]] Hr'; rewrite H in Hr'.
      - by simplify_eq.
      - by apply fail_opt_some in Hr' as ->.
      - by simplify_eq. }
    destruct (range_step _ _ _ _ _ _ Hinv Hst) as [(H1 & _)|[(q & h & oh & -> & Hlt & H64 & _ & Hq)|
        [(id' & q & b & e & r1 & bs & -> & _ & _ & Hr1 & Hs & _ & _ & _ & _ & Hc)|(id' & q & b & e & r1 & _ & _ & Hr1 & _ & _ & _ & Hf & _)]]].
    - rewrite H1, Hr in Hr'. simplify_eq. lia.
    - destruct (Hreq _ _ _ _ _ _ Hq Hr') as [-> ->]. unfold status_range. rewrite Hr. cbn. lia.
    - destruct Hc as [(Hn & _)|(n1 & _ & _ & _ & _ & _ & Hq)]; [congruence|].
      destruct (Hreq _ _ _ _ _ _ Hq Hr') as [-> ->]. rewrite Hr in Hr1. simplify_eq. cbn. lia.
    - rewrite Hf in Hr'. apply fail_opt_some in Hr' as ->. rewrite Hr in Hr1. simplify_eq. cbn. lia.
  Qed.
  Lemma C47_target_pf n l m a t a' t' :
    reached root_of n -> run root_of n l m -> throughout syncing l m ->
    sync_range n a t -> sync_range m a' t' -> a <= a' /\ t <= t'.
  Proof using.
    intros Hre%reached_inv Hrun. revert Hre a t. induction Hrun as [n|n pick ok ev n1 acts l m Hst Hrun IH];
      intros Hi a t [Hth Hm] Hn Hm'.
    - destruct Hn as (r & Hr & <- & <-), Hm' as (r' & Hr' & <- & <-). rewrite Hr in Hr'. simplify_eq. lia.
    - assert (syncing n1) as [r1 Hr1].
      { inversion Hrun; subst; [done|]. apply (Hth (mkEntry n1 ev0 ok0 acts0)). right. left. }
      assert (sync_range n1 (rs_start r1) (rs_end r1)) as H1 by (exists r1; done).
      pose proof (grow_step _ _ _ _ _ _ _ _ _ _ Hi Hst Hn H1) as [G1 G2].
      destruct (IH (step_inv _ _ _ _ _ _ _ Hi Hst) (rs_start r1) (rs_end r1)) as [G3 G4]; [|done|done|lia].
      split; [|done]. intros x Hx. apply Hth. by right.
  Qed.

  Lemma C47_raise_pf pick ok n p h oh n' acts a t :
    reached root_of n -> oh < h -> h < two64 - 1 -> step root_of pick ok n (EvStatus p h oh) = Some (n', acts) ->
    sync_range n' a t -> N.min h (oh + 65536) < t.
  Proof using.
    intros Hre%reached_inv Hlt H64 Hst (r' & Hr' & _ & <-).
    destruct (range_step _ _ _ _ _ _ Hre Hst) as [(_ & _ & _ & H1 & _)|[(q & h' & oh' & [= <- <- <-] & _ & _ & _ & Hq)|
        [(id' & q & b & e & r1 & bs & ? & _)|(id' & q & b & e & r1 & [?|?] & _)]]]; try done.
    - specialize (H1 p h oh eq_refl). lia.
    - assert (rs_end r' = rs_end (status_range n p h oh)) as ->.
      { destruct Hq as [(_ & H & _)|[(q & b & e & _ & _ & H & _)|(q & b & e & _ & _ & H & _)]]; rewrite H in Hr'.
        - by simplify_eq.
        - by apply fail_opt_some in Hr' as ->.
        - by simplify_eq. }
      unfold status_range. destruct (sv_range (nt_srv n)); cbn; unfold sat_add, MAX_SYNC_RANGE, MAX_REQUEST_BLOCKS, two64 in *; lia.
  Qed.

  Lemma acts_cons x l : acts_of (x :: l) = en_acts x ++ acts_of l.
  Proof using. done. Qed.
  Lemma acts_app l l' : acts_of (l ++ l') = acts_of l ++ acts_of l'.
  Proof using. unfold acts_of. by rewrite map_app, concat_app. Qed.
  Lemma batches_app l l' : batches (l ++ l') = batches l ++ batches l'.
  Proof using. unfold batches. apply omap_app. Qed.
  Lemma batches_nil acts : batches acts = [] <-> nosend acts.
  Proof using.
    unfold nosend. induction acts as [|x acts IH].
    - split; [|done]. intros _ id p a c Hx. by apply elem_of_nil in Hx.
    - split.
      + intros Hb id p a c [<-|Hx]%elem_of_cons; [done|]. destruct x; try done; by apply IH in Hx.
      + intros Hn. destruct x; cbn; try (apply IH; intros id' q a' c' Hx; by apply (Hn id' q a' c'); right).
        exfalso. eapply Hn. left.
  Qed.
  Lemma throughout_tail P x l m : throughout P (x :: l) m -> throughout P l m.
  Proof using. intros [H1 H2]. split; [|done]. intros y Hy. apply H1. by right. Qed.
  Lemma throughout_next (P : Net -> Prop) x l n m : throughout P (x :: l) m -> run root_of n l m -> P n.
  Proof using.
    intros [H1 H2] Hr. inversion Hr as [|? pick ok ev n' acts l0 m0 Hst Hrun]; subst; [done|].
    apply (H1 (mkEntry n ev ok acts)). right. left.
  Qed.

  Lemma flight_waits n id p a e : inv n -> waiting_range n id p a e ->
    exists r, sv_range (nt_srv n) = Some r /\ rs_flight r = true /\ rs_start r = a /\ a <= e.
  Proof using. intros (_ & Hr & _) H. destruct (ir_live _ _ Hr _ _ _ _ H) as (r & ? & ? & ? & ? & _). eauto. Qed.

  (** With a request waiting, a status asks for nothing. *)
  Lemma status_waiting pick ok n p h oh n' acts id q a e :
    inv n -> waiting_range n id q a e -> requested pick ok n n' (status_range n p h oh) acts ->
    nosend acts /\ same_wait n n'.
  Proof using.
    intros Hi Hw Hq. destruct (flight_waits _ _ _ _ _ Hi Hw) as (r & Hr & Hf & _).
    assert (next_batch pick (status_range n p h oh) = None) as Hn.
    { unfold status_range. rewrite Hr. unfold next_batch. cbn. by rewrite Hf. }
    destruct Hq as [(_ & _ & H & H')|[(x & y & z & H & _)|(x & y & z & H & _)]]; [done|congruence|congruence].
  Qed.
  (** With eligible peers the next batch is asked for. *)
  Lemma complete_asks pick r e :
    e < two64 - 1 -> rs_start r <= e -> e + 1 < rs_end r -> rs_end r <= two64 - 1 -> rs_peers (complete_batch r e) <> ∅ ->
    next_batch pick (complete_batch r e) <> None.
  Proof using.
    intros H64 Hs He Hend Hp Hn. apply Hp. apply map_empty. intros q.
    destruct (rs_peers (complete_batch r e) !! q) as [h|] eqn:Hq; [|done].
    pose proof Hq as Hq'. cbn in Hq'. apply map_filter_lookup_Some in Hq' as [_ Hq']. cbn in Hq'.
    assert (rs_start (complete_batch r e) = e + 1) as Hst by (cbn; unfold sat_add; lia).
    pose proof (next_batch_none pick _ Hn eq_refl) as Hx. rewrite Hst in Hx. cbn [rs_end] in Hx.
    specialize (Hx He Hend q h Hq). unfold sat_add in Hq'. lia.
  Qed.

  (** Nothing waits and slots from [s] on are to be asked for. *)
  Definition idle_at (n : Net) (s : N) : Prop := no_wait n /\ exists r, sv_range (nt_srv n) = Some r /\ rs_start r = s.

  Lemma idle_step pick ok n ev n' acts s :
    inv n -> idle_at n s -> step root_of pick ok n ev = Some (n', acts) -> syncing n' ->
    (nosend acts /\ idle_at n' s) \/
    (exists id p e, s < e /\ waiting_range n' id p s (e - 1) /\
      (forall id' p' a' c', SendRange id' p' a' c' ∈ acts <-> id' = id /\ p' = p /\ a' = s /\ c' = e - s) /\
      batches acts = [(s, e - s)]).
  Proof using.
    intros Hi [Hnw (r & Hr & Hs)] Hst [r' Hr'].
    destruct (range_step _ _ _ _ _ _ Hi Hst) as [(H1 & H2 & H3 & _)|[(q & h & oh & -> & Hlt & H64 & _ & Hq)|
        [(id' & q & b & e & r1 & bs & -> & _ & Hw & _)|(id' & q & b & e & r1 & _ & Hw & _)]]].
    - left. split; [done|]. split; [|exists r; by rewrite H1]. intros id p a e Hx. apply H3 in Hx. by apply Hnw in Hx.
    - assert (rs_start (status_range n q h oh) = s) as Hs'. { unfold status_range. rewrite Hr. done. }
      destruct Hq as [(_ & H & H2 & H3)|[(p & b & e & _ & _ & H & H2 & H3)|(p & b & e & Hnb & _ & H & H2 & H3)]].
      + left. split; [done|]. split; [|eauto]. intros id p a e Hx. apply H3 in Hx. by apply Hnw in Hx.
      + left. split; [done|]. split; [done|]. rewrite H in Hr'. apply fail_opt_some in Hr' as Hx. subst r'.
        exists (fail_peer (status_range n q h oh) p). split; [by rewrite H|done].
      + right. destruct (next_batch_spec _ _ _ _ _ Hnb) as (_ & Hb & Hlt' & _). rewrite Hs' in Hb. subst b.
        exists (nt_next n), p, e. split; [done|]. split; [|exact H2]. apply H3. done.
    - by apply Hnw in Hw.
    - by apply Hnw in Hw.
  Qed.

  Lemma idle_next n l x m s id p a c :
    inv n -> idle_at n s -> run root_of n (l ++ [x]) m -> throughout syncing (l ++ [x]) m ->
    batches (acts_of l) = [] -> SendRange id p a c ∈ en_acts x -> a = s.
  Proof using.
    revert n. induction l as [|y l IH]; intros n Hi Hid Hrun Hth Hb Hin.
    - inversion Hrun as [|? pick ok ev n' acts l0 m0 Hst Hr]; subst. cbn in Hin.
      pose proof (throughout_next _ _ _ _ _ Hth Hr) as Hsy.
      destruct (idle_step _ _ _ _ _ _ _ Hi Hid Hst Hsy) as [[Hn _]|(i & q & e & _ & _ & Hx & _)]; [by apply Hn in Hin|].
      by apply Hx in Hin as (_ & _ & -> & _).
    - inversion Hrun as [|? pick ok ev n' acts l0 m0 Hst Hr]; subst.
      pose proof (throughout_next _ _ _ _ _ Hth Hr) as Hsy.
      rewrite acts_cons, batches_app in Hb. apply app_eq_nil in Hb as [Hb1 Hb2]. cbn in Hb1. apply batches_nil in Hb1.
      destruct (idle_step _ _ _ _ _ _ _ Hi Hid Hst Hsy) as [[_ Hid']|(i & q & e & _ & _ & Hx & _)].
      + apply (IH n'); try done; [by eapply step_inv|by eapply throughout_tail].
      + exfalso. eapply Hb1. apply Hx. done.
  Qed.

  Lemma C47_next_pf n l x m id p a e id' p' a' c' :
    reached root_of n -> waiting_range n id p a e ->
    run root_of n (l ++ [x]) m -> throughout syncing (l ++ [x]) m ->
    batches (acts_of l) = [] -> SendRange id' p' a' c' ∈ en_acts x ->
    (answered id (l ++ [x]) /\ a' = e + 1) \/ (failed id (l ++ [x]) /\ a' = a).
  Proof using.
    intros Hre%reached_inv. revert n Hre. induction l as [|y l IH]; intros n Hi Hw Hrun Hth Hb Hin.
    - inversion Hrun as [|? pick ok ev n' acts l0 m0 Hst Hr]; subst. cbn in Hin.
      destruct (range_step _ _ _ _ _ _ Hi Hst) as [(_ & H2 & _)|[(q & h & oh & -> & _ & _ & _ & Hq)|
        [(i & q & b & e1 & r1 & bs & -> & Hbs & Hw' & Hr1 & Hs1 & K1 & K2 & K3 & K4 & Hc)|
         (i & q & b & e1 & r1 & _ & _ & _ & _ & _ & _ & _ & Ha & _)]]].
      + by apply H2 in Hin.
      + apply (status_waiting _ _ _ _ _ _ _ _ _ _ _ _ Hi Hw) in Hq as [Hn _]. by apply Hn in Hin.
      + assert (i = id) as -> by exact (ir_one _ _ (proj1 (proj2 Hi)) _ _ _ _ _ _ _ _ Hw' Hw).
        unfold waiting_range in Hw, Hw'. rewrite Hw in Hw'. simplify_eq.
        destruct Hc as [(_ & Hn & _)|(n1 & _ & _ & _ & _ & _ & Hq)]; [by apply Hn in Hin|].
        destruct (requested_send _ _ _ _ _ _ _ _ _ _ Hq Hin) as (e' & Hnb & ->).
        apply next_batch_spec in Hnb as (_ & -> & _). left. split.
        * exists bs. split; [done|]. eexists. split; [left|done].
        * cbn. unfold sat_add. lia.
      + subst acts. by apply elem_of_nil in Hin.
    - inversion Hrun as [|? pick ok ev n' acts l0 m0 Hst Hr]; subst.
      pose proof (throughout_next _ _ _ _ _ Hth Hr) as Hsy.
      pose proof (throughout_tail _ _ _ _ Hth) as Hth'.
      rewrite acts_cons, batches_app in Hb. apply app_eq_nil in Hb as [Hb1 Hb2]. cbn in Hb1. apply batches_nil in Hb1.
      assert (inv n') as Hi' by by eapply step_inv.
      assert (waiting_range n' id p a e -> (answered id (mkEntry n ev ok acts :: l ++ [x]) /\ a' = e + 1) \/
        (failed id (mkEntry n ev ok acts :: l ++ [x]) /\ a' = a)) as Hstill.
      { intros Hw'. destruct (IH n' Hi' Hw' Hr Hth' Hb2 Hin) as [[(bs & ? & z & Hz & ?) ?]|[Hf ?]].
        - left. split; [|done]. exists bs. split; [done|]. exists z. split; [by right|done].
        - right. split; [|done]. destruct Hf as [(z & Hz & ?)|(z & Hz & ?)]; [left|right]; exists z; (split; [by right|done]). }
      destruct (range_step _ _ _ _ _ _ Hi Hst) as [(_ & _ & H3 & _)|[(q & h & oh & -> & _ & _ & _ & Hq)|
        [(i & q & b & e1 & r1 & bs & -> & Hbs & Hw' & Hr1 & Hs1 & K1 & K2 & K3 & K4 & Hc)|
         (i & q & b & e1 & r1 & Hev & Hw' & Hr1 & Hs1 & _ & _ & Hf & _ & Hnw)]]].
      + apply Hstill. by apply H3.
      + apply Hstill. apply (status_waiting _ _ _ _ _ _ _ _ _ _ _ _ Hi Hw) in Hq as [_ Hs]. by apply Hs.
      + assert (i = id) as -> by exact (ir_one _ _ (proj1 (proj2 Hi)) _ _ _ _ _ _ _ _ Hw' Hw).
        unfold waiting_range in Hw, Hw'. rewrite Hw in Hw'. simplify_eq.
        left. split. { exists bs. split; [done|]. eexists. split; [left|done]. }
        destruct Hc as [(Hn & _)|(n1 & _ & Hnw1 & _ & E1 & E2 & Hq)]; [destruct Hsy; congruence|].
        refine (idle_next n' l x m (e1 + 1) id' p' a' c' Hi' _ Hr Hth' Hb2 Hin).
        destruct Hq as [(Hn & _)|[(q' & b' & e' & _ & _ & H & H2 & H3)|(q' & b' & e' & Hnb & _ & H & H2 & H3)]].
        * exfalso. apply (complete_asks pick r1 e1); try done; lia.
        * split; [done|]. destruct Hsy as [r' Hr']. rewrite H in Hr'. pose proof (fail_opt_some _ _ _ Hr') as ->.
          eexists. split; [by rewrite H, Hr'|]. cbn. unfold sat_add. lia.
        * exfalso. eapply Hb1. apply H2. done.
      + assert (i = id) as -> by exact (ir_one _ _ (proj1 (proj2 Hi)) _ _ _ _ _ _ _ _ Hw' Hw).
        unfold waiting_range in Hw, Hw'. rewrite Hw in Hw'. simplify_eq.
        right. split. { destruct Hev as [-> | ->]; [left|right]; eexists; (split; [left|done]). }
        refine (idle_next n' l x m (rs_start r1) id' p' a' c' Hi' _ Hr Hth' Hb2 Hin). split; [done|].
        destruct Hsy as [r' Hr']. rewrite Hf in Hr'. pose proof (fail_opt_some _ _ _ Hr') as ->.
        eexists. split; [by rewrite Hf, Hr'|done].
  Qed.


  Lemma tiles_app f l g l' h : tiles f l g -> tiles g l' h -> tiles f (l ++ l') h.
  Proof using.
    revert f. induction l as [|[a c] l IH]; intros f; cbn; [by intros ->|]. intros (-> & Hc & Ht) Ht'.
    split_and!; [done|done|]. by apply IH.
  Qed.
  Lemma idle_frontier n s : idle_at n s -> frontier n s.
  Proof using. intros [Hn (r & Hr & Hs)]. right. split; [done|]. exists (rs_end r), r. done. Qed.

  Lemma tiles_step pick ok n ev n' acts f :
    inv n -> frontier n f -> step root_of pick ok n ev = Some (n', acts) -> syncing n' ->
    ~ range_failure (mkEntry n ev ok acts) ->
    exists g, frontier n' g /\ tiles f (batches acts) g.
  Proof using.
    intros Hi Hf Hst Hsy Hnf. destruct Hf as [(id & p & a & e & Hw & ->)|[Hn (t & r & Hr & <- & _)]].
    - destruct (range_step _ _ _ _ _ _ Hi Hst) as [(_ & H2 & H3 & _)|[(q & h & oh & -> & _ & _ & _ & Hq)|
        [(i & q & b & e1 & r1 & bs & -> & Hbs & Hw' & Hr1 & Hs1 & K1 & K2 & K3 & K4 & Hc)|
         (i & q & b & e1 & r1 & Hev & Hw' & _)]]].
      + apply batches_nil in H2. exists (e + 1). rewrite H2. split; [|done]. left. exists id, p, a, e. split; [by apply H3|done].
      + apply (status_waiting _ _ _ _ _ _ _ _ _ _ _ _ Hi Hw) in Hq as [H2 H3]. apply batches_nil in H2.
        exists (e + 1). rewrite H2. split; [|done]. left. exists id, p, a, e. split; [by apply H3|done].
      + assert (i = id) as -> by exact (ir_one _ _ (proj1 (proj2 Hi)) _ _ _ _ _ _ _ _ Hw' Hw).
        unfold waiting_range in Hw, Hw'. rewrite Hw in Hw'. simplify_eq.
        destruct Hc as [(Hn & _)|(n1 & _ & Hnw1 & _ & E1 & E2 & Hq)]; [destruct Hsy; congruence|].
        assert (rs_start (complete_batch r1 e1) = e1 + 1) as Hst' by (cbn; unfold sat_add; lia).
        destruct Hq as [(Hn & _)|[(q' & b' & e' & _ & _ & H & H2 & H3)|(q' & b' & e' & Hnb & _ & H & [H2 H4] & H3)]].
        * exfalso. apply (complete_asks pick r1 e1); try done; lia.
        * apply batches_nil in H2. rewrite H2. exists (e1 + 1). split; [|done]. apply idle_frontier. split; [done|].
          destruct Hsy as [r' Hr']. rewrite H in Hr'. pose proof (fail_opt_some _ _ _ Hr') as ->.
          eexists. split; [by rewrite H, Hr'|]. done.
        * destruct (next_batch_spec _ _ _ _ _ Hnb) as (_ & Hb & Hlt & _). rewrite Hst' in Hb. subst b'.
          exists e'. split.
          -- left. exists (nt_next n1), q', (e1 + 1), (e' - 1). split; [by apply H3|lia].
          -- rewrite H4. cbn. split_and!; [done|lia|lia].
      + exfalso. apply Hnf. exists i, q, b, e1. done.
    - destruct (idle_step pick ok n ev n' acts (rs_start r) Hi) as [[H1 H2]|(id & p & e & Hlt & Hw & _ & Hb)]; try done.
      { split; [done|]. eauto. }
      + apply batches_nil in H1. rewrite H1. exists (rs_start r). split; [|done]. by apply idle_frontier.
      + exists e. rewrite Hb. split; [|cbn; split_and!; [done|lia|lia]].
        left. exists id, p, (rs_start r), (e - 1). split; [done|lia].
  Qed.
  Lemma C47_tiles_pf n l m f :
    reached root_of n -> frontier n f -> run root_of n l m -> throughout syncing l m ->
    (forall x, x ∈ l -> ~ range_failure x) ->
    exists g, frontier m g /\ tiles f (batches (acts_of l)) g.
  Proof using.
    intros Hre%reached_inv Hf Hrun. revert f Hre Hf. induction Hrun as [n|n pick ok ev n1 acts l m Hst Hrun IH];
      intros f Hi Hf Hth Hnf.
    - exists f. done.
    - pose proof (throughout_next _ _ _ _ _ Hth Hrun) as Hsy.
      destruct (tiles_step _ _ _ _ _ _ _ Hi Hf Hst Hsy) as (g & Hg & Ht); [apply Hnf; left|].
      destruct (IH g (step_inv _ _ _ _ _ _ _ Hi Hst) Hg) as (g' & Hg' & Ht').
      { by eapply throughout_tail. } { intros x Hx. apply Hnf. by right. }
      exists g'. split; [done|]. rewrite acts_cons, batches_app. by eapply tiles_app.
  Qed.

  Lemma fail_opt_none r p :
    (forall q h, rs_peers r !! q = Some h -> rs_start r <= h) ->
    fail_opt r p = None <-> (forall q h, rs_peers r !! q = Some h -> q = p).
  Proof using.
    intros Hp. unfold fail_opt. destruct (decide _) as [He|He]; split; try done.
    - intros _ q h Hq. destruct (decide (q = p)) as [|Hne]; [done|]. exfalso.
      assert (rs_peers (fail_peer r p) !! q = Some h) as Hx.
      { cbn. apply map_filter_lookup_Some. split; [by rewrite lookup_delete_ne|]. cbn. by eapply Hp. }
      rewrite He in Hx. by rewrite lookup_empty in Hx.
    - intros H. exfalso. apply He. apply map_empty. intros q.
      destruct (rs_peers (fail_peer r p) !! q) as [h|] eqn:Hq; [|done]. exfalso.
      cbn in Hq. apply map_filter_lookup_Some in Hq as [[Hne Hq]%lookup_delete_Some _]. apply H in Hq. done.
  Qed.
  Lemma complete_empty r e :
    e < two64 - 1 -> rs_start r <= e ->
    rs_peers (complete_batch r e) = ∅ <-> (forall q h, rs_peers r !! q = Some h -> h <= e).
  Proof using.
    intros H64 Hs. assert (rs_start (complete_batch r e) = e + 1) as Hst by (cbn; unfold sat_add; lia). split.
    - intros He q h Hq. destruct (N.le_gt_cases h e) as [|Hgt]; [done|]. exfalso.
      assert (rs_peers (complete_batch r e) !! q = Some h) as Hx.
      { cbn. apply map_filter_lookup_Some. split; [done|]. cbn. unfold sat_add. lia. }
      rewrite He in Hx. by rewrite lookup_empty in Hx.
    - intros H. apply map_empty. intros q.
      destruct (rs_peers (complete_batch r e) !! q) as [h|] eqn:Hq; [|done]. exfalso.
      cbn in Hq. apply map_filter_lookup_Some in Hq as [Hq Hx]. cbn in Hx. apply H in Hq. unfold sat_add in Hx. lia.
  Qed.

  Lemma C47_dropped_pf pick n ev n' acts :
    reached root_of n -> syncing n -> step root_of pick true n ev = Some (n', acts) ->
    ~ syncing n' <->
    (exists id p a e, waiting_range n id p a e /\
      ((exists bs, ev = EvBlocks id bs /\ bs <> [] /\
         (sv_chain (nt_srv n) = false \/ sync_range n a (e + 1) \/ forall q h, sync_peer n q h -> h <= e)) \/
       ((ev = EvFailure id \/ ev = EvBlocks id []) /\ forall q h, sync_peer n q h -> q = p))).
  Proof using.
    intros Hre%reached_inv [r Hr] Hst.
    assert (forall id p a e, waiting_range n id p a e -> forall id' p' a' e', waiting_range n id' p' a' e' ->
      id' = id /\ p' = p /\ a' = a /\ e' = e) as Huniq.
    { clear r Hr Hst. intros id p a e Hw id' p' a' e' Hw'.
      assert (id' = id) as -> by exact (ir_one _ _ (proj1 (proj2 Hre)) _ _ _ _ _ _ _ _ Hw' Hw).
      unfold waiting_range in *. rewrite Hw in Hw'. by simplify_eq. }
    destruct (range_step _ _ _ _ _ _ Hre Hst) as [(H1 & _ & _ & _ & H5)|[(q & h & oh & -> & _ & _ & _ & Hq)|
        [(i & q & b & e1 & r1 & bs & -> & Hbs & Hw & Hr1 & Hs1 & K1 & K2 & K3 & K4 & Hc)|
         (i & q & b & e1 & r1 & Hev & Hw & Hr1 & Hs1 & K1 & K2 & Hf & _)]]].
    - split.
      + intros Hn. exfalso. apply Hn. exists r. by rewrite H1.
      + intros (id & p & a & e & Hw & Hx). apply H5 in Hw as [Hw1 Hw2]. exfalso.
        destruct Hx as [(bs & -> & _)|[[-> | ->] _]]; [by eapply Hw2|done|by eapply Hw2].
    - split.
      + intros Hn. exfalso. apply Hn. destruct Hq as [(_ & H & _)|[(q' & b' & e' & _ & ? & _)|(q' & b' & e' & _ & _ & H & _)]].
        * eexists. exact H.
        * done.
        * eexists. exact H.
      + intros (id & p & a & e & Hw & Hx). exfalso.
        destruct Hx as [(bs & ? & _)|[[? | ?] _]]; done.
    - rewrite Hr in Hr1. injection Hr1 as <-. split.
      + intros Hn. exists i, q, b, e1. split; [done|]. left. exists bs. split_and!; try done.
        destruct Hc as [(_ & _ & _ & [H|[H|H]])|(n1 & _ & _ & _ & E1 & E2 & Hq)].
        * by left.
        * right; left. exists r. split_and!; [done|done|lia].
        * right; right. intros p h (r' & Hr' & Hp). rewrite Hr in Hr'. injection Hr' as <-.
          refine (proj1 (complete_empty r e1 K3 _) H p h Hp). lia.
        * exfalso. apply Hn. destruct Hq as [(_ & H & _)|[(q' & b' & e' & _ & ? & _)|(q' & b' & e' & _ & _ & H & _)]].
          -- eexists. exact H.
          -- done.
          -- eexists. exact H.
      + intros (id & p & a & e & Hw' & Hx). destruct (Huniq _ _ _ _ Hw _ _ _ _ Hw') as (-> & -> & -> & ->).
        destruct Hx as [(bs' & [= <-] & _ & Hx)|[[? | [= ->]] _]]; [|done|done].
        destruct Hc as [(H & _)|(n1 & _ & _ & Hch & E1 & E2 & Hq)]; [intros [r' Hr']; congruence|]. exfalso.
        destruct Hx as [Hx|[(r' & Hr' & _ & Hx)|Hx]].
        * congruence.
        * rewrite Hr in Hr'. injection Hr' as <-. lia.
        * apply E2. apply complete_empty; [done|lia|]. intros p h Hp. apply (Hx p). by exists r.
    - rewrite Hr in Hr1. injection Hr1 as <-.
      assert (~ syncing n' <-> fail_opt r q = None) as ->.
      { unfold syncing. rewrite Hf. destruct (fail_opt r q); split; try done; [|by intros _ [? ?]]. intros Hn. exfalso. apply Hn. eauto. }
      rewrite fail_opt_none by (intros p h; by apply (ir_peers _ _ (proj1 (proj2 Hre)))). split.
      + intros H. exists i, q, b, e1. split; [done|]. right. split; [done|]. intros p h (r' & Hr' & Hp).
        rewrite Hr in Hr'. injection Hr' as <-. by eapply H.
      + intros (id & p & a & e & Hw' & Hx). destruct (Huniq _ _ _ _ Hw _ _ _ _ Hw') as (-> & -> & -> & ->).
        destruct Hx as [(bs' & -> & Hbs & _)|[_ Hx]].
        * destruct Hev as [? | [= ->]]; done.
        * intros p h Hp. apply (Hx p h). by exists r.
  Qed.

  Lemma C47_stall_pf n l m :
    reached root_of n -> (forall id p a e, ~ waiting_range n id p a e) -> run root_of n l m ->
    (forall p h oh, happened (EvStatus p h oh) l -> h <= oh) ->
    batches (acts_of l) = [].
  Proof using.
    intros Hre%reached_inv Hnw Hrun. revert Hre Hnw. induction Hrun as [n|n pick ok ev n1 acts l m Hst Hrun IH];
      intros Hi Hnw Hno; [done|].
    assert (forall p h oh, happened (EvStatus p h oh) l -> h <= oh) as Hno'.
    { intros p h oh (x & Hx & He). apply (Hno p h oh). exists x. split; [by right|done]. }
    pose proof (step_inv _ _ _ _ _ _ _ Hi Hst) as Hi'.
    destruct (range_step _ _ _ _ _ _ Hi Hst) as [(H1 & H2 & H3 & _)|[(q & h & oh & -> & Hlt & _)|
        [(i & q & b & e1 & r1 & bs & -> & Hbs & Hw & _)|
         (i & q & b & e1 & r1 & Hev & Hw & _)]]].
    - rewrite acts_cons, batches_app. cbn [en_acts]. apply batches_nil in H2. rewrite H2. apply IH; try done.
      intros id p a e Hw. apply H3 in Hw. by apply Hnw in Hw.
    - exfalso. assert (h <= oh); [|lia]. apply (Hno q h oh). eexists. split; [left|done].
    - by apply Hnw in Hw.
    - by apply Hnw in Hw.
  Qed.

  Lemma handed_map l : handed_on (map Deliver l) = l.
  Proof using. induction l as [|b l IH]; cbn; [done|]. f_equal. exact IH. Qed.
  Lemma handed_app l k : handed_on (l ++ k) = handed_on l ++ handed_on k.
  Proof using. apply omap_app. Qed.
  Lemma request_delivers oc s : handed_on (request_next_range_batch oc s).2 = [].
  Proof using.
    unfold request_next_range_batch. destruct (sv_range s) as [r|]; [|done].
    repeat (match goal with |- context [match ?x with _ => _ end] => destruct x end; try done).
  Qed.
  Lemma range_filter a e bs :
    List.filter (fun b => negb ((b_slot (sb_block b) <? a) || (e <? b_slot (sb_block b)))) bs =
    filter (fun b => a <= b_slot (sb_block b) <= e) bs.
  Proof using.
    clear root_of. induction bs as [|b bs IH]; [done|]. cbn [List.filter]. rewrite IH.
    destruct (N.ltb_spec (b_slot (sb_block b)) a); cbn [orb negb]; [by rewrite filter_cons_False by lia|].
    destruct (N.ltb_spec e (b_slot (sb_block b))); cbn [orb negb]; [by rewrite filter_cons_False by lia|].
    by rewrite filter_cons_True by lia.
  Qed.

  Lemma C47_delivers_pf pick ok n id p a e bs n' acts :
    reached root_of n -> waiting_range n id p a e -> sv_chain (nt_srv n) = true -> bs <> [] ->
    step root_of pick ok n (EvBlocks id bs) = Some (n', acts) ->
    handed_on acts = filter (fun b => a <= b_slot (sb_block b) <= e) bs.
  Proof using.
    intros Hre%reached_inv Hw Hch Hbs Hst. unfold step in Hst. unfold waiting_range in Hw. rewrite Hw in Hst.
    destruct (inv_delete _ _ _ _ Hre Hw) as [_ Hout]. unfold handle_blocks in Hst. rewrite Hout in Hst.
    rewrite <- range_filter.
    unfold handle_blocks_by_range_response in Hst. destruct bs as [|b bs]; [done|].
    cbn [set_out sv_chain sv_range] in Hst. rewrite Hch in Hst.
    destruct (sv_range (nt_srv n)) as [r|].
    - destruct (_ || _).
      + injection Hst as _ <-. apply handed_map.
      + pose proof (request_delivers (mkOc pick (if ok then Some (nt_next n) else None))
          (set_range (set_out (nt_srv n) (delete id (sv_out (nt_srv n)))) (Some (complete_batch r e)))) as Hd.
        destruct (request_next_range_batch _ _) as [s' a']. injection Hst as _ <-. cbn [snd] in *.
        by rewrite handed_app, handed_map, Hd, app_nil_r.
    - pose proof (request_delivers (mkOc pick (if ok then Some (nt_next n) else None))
          (set_out (nt_srv n) (delete id (sv_out (nt_srv n))))) as Hd.
      destruct (request_next_range_batch _ _) as [s' a']. injection Hst as _ <-. cbn [snd] in *.
      by rewrite handed_app, handed_map, Hd, app_nil_r.
  Qed.
End Range.
