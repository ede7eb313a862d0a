(** Aggregates made by the node itself verify (C39, C53). *)
From Verif Require Export AggProofs.
From stdpp Require Import sorting.
Local Open Scope N_scope.

(** *** Participants of a result *)
Lemma dedup_elem l v : v ∈ dedup l <-> v ∈ l.
Proof.
  induction l as [|x l IH]; [done|]. destruct l as [|y l]; [done|]. cbn [dedup].
  destruct (N.eqb_spec x y) as [->|Hne].
  - rewrite IH. rewrite !elem_of_cons. tauto.
  - rewrite (elem_of_cons _ _ x), (elem_of_cons (y :: l) _ x), IH. done.
Qed.
Lemma dedup_sorted l : StronglySorted N.le l -> StronglySorted N.lt (dedup l).
Proof.
  induction l as [|x l IH]; [constructor|]. intros Hs. inversion Hs as [|? ? Hs' Hx]; subst.
  destruct l as [|y l]; [by repeat constructor|].
  change (dedup (x :: y :: l)) with (if x =? y then dedup (y :: l) else x :: dedup (y :: l)). destruct (N.eqb_spec x y) as [->|Hne]; [by apply IH|].
  constructor; [by apply IH|]. apply Forall_forall. intros z Hz. apply (proj1 (dedup_elem _ _)) in Hz.
  assert (x <= y) by (by inversion Hx). assert (y <= z); [|lia].
  apply elem_of_cons in Hz as [->|Hz]; [lia|]. inversion Hs' as [|? ? _ Hy]; subst. by eapply Forall_forall in Hy.
Qed.
Lemma participants_spec l :
  StronglySorted N.lt (dedup (merge_sort N.le l)) /\ forall v, v ∈ dedup (merge_sort N.le l) <-> v ∈ l.
Proof.
  split.
  - apply dedup_sorted. apply StronglySorted_merge_sort; [exact _|]. intros x y. lia.
  - intros v. rewrite dedup_elem. by rewrite merge_sort_Permutation.
Qed.

Lemma max_ge l v : v ∈ l -> v <= fold_right N.max 0 l.
Proof. induction l as [|x l IH]; intros H; [by inversion H|]. cbn. apply elem_of_cons in H as [->|H]; [lia|]. specialize (IH H). lia. Qed.
Lemma max_lt l n : l <> [] -> (forall v, v ∈ l -> v < n) -> fold_right N.max 0 l < n.
Proof.
  intros Hne H. destruct l as [|x l]; [done|]. clear Hne. revert x H. induction l as [|y l IH]; intros x H.
  - cbn. specialize (H x (elem_of_list_here _ _)). lia.
  - change (fold_right N.max 0 (x :: y :: l)) with (N.max x (fold_right N.max 0 (y :: l))).
    specialize (IH y). assert (x < n) by (apply H; left). assert (fold_right N.max 0 (y :: l) < n); [|lia].
    apply IH. intros v Hv. apply H. by right.
Qed.
Lemma bits_from_spec l bits v :
  bits_from_indices l = Ok bits -> (bits !! N.to_nat v = Some true <-> v ∈ l).
Proof.
  unfold bits_from_indices. destruct l as [|x l]; [intros H; apply Ok_inj in H as <-; rewrite lookup_nil; split; [done|by intros ?%elem_of_nil]|].
  set (l' := x :: l). destruct (_ <? _) eqn:Hlim; [done|]. intros H. apply Ok_inj in H as <-.
  rewrite list_lookup_fmap. split.
  - intros H. destruct (seq _ _ !! N.to_nat v) as [i|] eqn:Hi; [|done]. cbn in H. injection H as H.
    apply bool_decide_eq_true in H. apply lookup_seq in Hi as [-> _]. cbn in H. by rewrite N2Nat.id in H.
  - intros H. pose proof (max_ge _ _ H) as Hm.
    assert (seq 0 (N.to_nat (fold_right N.max 0 l' + 1)) !! N.to_nat v = Some (N.to_nat v)) as ->.
    { apply lookup_seq. split; [done|]. lia. }
    cbn. f_equal. apply bool_decide_eq_true. by rewrite N2Nat.id.
Qed.
Lemma bits_from_ok l : (forall v, v ∈ l -> v < VALIDATOR_REGISTRY_LIMIT) -> exists bits, bits_from_indices l = Ok bits.
Proof.
  intros H. unfold bits_from_indices. destruct l as [|x l]; [eauto|]. pose proof (max_lt (x :: l) _ ltac:(done) H).
  destruct (N.ltb_spec VALIDATOR_REGISTRY_LIMIT (fold_right N.max 0 (x :: l) + 1)); [lia|]. eauto.
Qed.

Lemma C39_output_pf E P2 j d p ps del :
  aggregate_job E P2 j = Ok (Some (d, p, ps, del)) ->
  d = jb_data j /\ del = jb_delete j /\ StronglySorted N.lt ps /\
  (forall v, v ∈ ps <-> v ∈ jb_raw_ids j \/ v ∈ jb_child_ids j) /\
  (forall v, takes_part v p <-> v ∈ ps) /\
  ad_slot d < two32 /\
  pv_mixed P2 (jb_children j) (jb_raw_keys j) (jb_raw_sigs j) (e_data E d) (ad_slot d) = Some (pr_bytes p).
Proof.
  unfold aggregate_job. destruct (_ && _); [done|]. destruct (N.leb_spec two32 (ad_slot (jb_data j))) as [|Hsl]; [done|].
  destruct (pv_mixed _ _ _ _ _ _) as [bytes|] eqn:Hm; [|done].
  destruct (bits_from_indices _) as [bits| |] eqn:Hb; [|done..]. cbn [rbind].
  intros H. apply Ok_inj in H. injection H as <- <- <- <-. cbn [pr_bytes].
  destruct (participants_spec (jb_raw_ids j ++ jb_child_ids j)) as [H1 H2].
  split; [done|]. split; [done|]. split; [done|]. split; [by setoid_rewrite elem_of_app in H2|].
  split; [|done]. intros v. unfold takes_part. cbn [pr_bits]. by apply bits_from_spec.
Qed.

(** *** The jobs of a session *)
Section Jobs.
  Context (E : Env) (iter_raw : list (N * (N * N)) -> list (N * (N * N))) (Hiter : forall l, iter_raw l ≡ₚ l).

  (** Candidate [c] is the job of data in the pools of [n]. *)
  Definition candidate_of (n : Node) (vals : list Validator) (c : H256 * Job) : Prop :=
    exists sigs, good_job E vals (jb_data c.2) sigs (proofs_of (nd_new n) c.1 ++ proofs_of (nd_known n) c.1) c.2 /\
      c.1 = e_data E (jb_data c.2) /\
      ((forall v s, (v, s) ∈ sigs <-> sig_of (nd_gossip n) c.1 v = Some s) \/ sigs = []).

  Lemma gossip_cands n vals groups :
    (forall r d sigs, (r, d, sigs) ∈ groups -> r = e_data E d /\ forall v s, (v, s) ∈ sigs <-> sig_of (nd_gossip n) r v = Some s) ->
    exists l, gossip_candidates E iter_raw n vals groups = Ok l /\ Forall (candidate_of n vals) l /\
      sublist (map fst l) (map (fun g => g.1.1) groups).
  Proof.
    induction groups as [|[[r d] sigs] groups IH]; intros Hg; cbn [gossip_candidates].
    - exists []. by split_and!.
    - destruct (resolve_total E iter_raw vals d sigs (proofs_for_root (nd_new n) r) (proofs_for_root (nd_known n) r)) as [o Ho].
      rewrite Ho. cbn [rbind]. destruct IH as (l & -> & Hl & Hsub); [intros r' d' s' H'; apply Hg; by right|]. cbn [rbind].
      destruct o as [j|]; [|exists l; split_and!; [done|done|by constructor]].
      exists ((r, j) :: l). split; [done|]. split; [|by constructor]. constructor; [|done].
      apply C39_job_pf in Ho; [|done]. destruct (Hg r d sigs) as [Hr Hs]; [left|].
      pose proof (gj_data _ _ _ _ _ _ Ho) as Hd. exists sigs. cbn [fst snd]. rewrite Hd. split; [done|]. split; [done|by left].
  Qed.
  Lemma payload_cands n vals have keys :
    (forall r d, (r, d) ∈ keys -> r = e_data E d) ->
    exists l, payload_candidates E iter_raw n vals have keys = Ok l /\ Forall (candidate_of n vals) l /\
      sublist (map fst l) (map fst keys) /\ (forall r, r ∈ map fst l -> r ∉ map fst have).
  Proof.
    induction keys as [|[r d] keys IH]; intros Hg; cbn [payload_candidates].
    - exists []. split_and!; [done|done|done|]. intros r H. by inversion H.
    - set (o1 := if bool_decide (r ∈ map fst have) || _ then _ else _).
      assert (exists o, o1 = Ok o /\ forall j, o = Some j -> r ∉ map fst have /\
        resolve_job E iter_raw vals d [] (proofs_for_root (nd_new n) r) (proofs_for_root (nd_known n) r) = Ok (Some j)) as (o & -> & Ho).
      { unfold o1. case_bool_decide as Hin; cbn [orb]; [by exists None|]. destruct (_ <? _)%nat; [by exists None|].
        destruct (resolve_total E iter_raw vals d [] (proofs_for_root (nd_new n) r) (proofs_for_root (nd_known n) r)) as [o Ho].
        exists o. split; [done|]. intros j ->. done. }
      cbn [rbind]. destruct IH as (l & -> & Hl & Hsub & Hnew); [intros r' d' H'; apply Hg; by right|]. cbn [rbind].
      destruct o as [j|]; [|exists l; split_and!; [done|done|by constructor|done]].
      destruct (Ho j eq_refl) as [Hni Hj].
      exists ((r, j) :: l). split; [done|]. split; [|split; [by constructor|]].
      + constructor; [|done]. apply C39_job_pf in Hj; [|done].
        pose proof (gj_data _ _ _ _ _ _ Hj) as Hd. exists []. cbn [fst snd]. rewrite Hd.
        split; [done|]. split; [apply Hg; left|by right].
      + intros r' H. cbn in H. apply elem_of_cons in H as [->|H]; [done|]. by apply Hnew.
  Qed.

  (** [c] would be accepted and adds votes. *)
  Definition scores (pj : Projected) known hist (n : N) (c : H256 * Job) (sc : EntryScore) : Prop :=
    passes_filters pj (jb_data c.2) known hist = true /\
    exists new, score_entry pj (jb_data c.2) (jb_coverage c.2) n = Some (sc, new).

  Lemma pick_job_fold pj known hist cur n cands best :
    (match fold_left (consider_job pj known hist cur n) cands best with
     | None => best = None /\ forall c sc, c ∈ cands -> ~ scores pj known hist n c sc
     | Some (r, j, sc) =>
         (best = Some (r, j, sc) \/ ((r, j) ∈ cands /\ scores pj known hist n (r, j) sc)) /\
         (forall c sc', c ∈ cands -> scores pj known hist n c sc' -> ad_slot (jb_data c.2) = cur -> ad_slot (jb_data j) = cur) /\
         (forall r' j' sc', best = Some (r', j', sc') -> ad_slot (jb_data j') = cur -> ad_slot (jb_data j) = cur)
     end).
  Proof.
    revert best. induction cands as [|c cands IH]; intros best; cbn [fold_left].
    - destruct best as [[[r j] sc]|].
      + split_and!; [by left|intros c sc' H; by inversion H|]. by intros ??? [= -> -> ->].
      + split; [done|]. intros c sc H. by inversion H.
    - specialize (IH (consider_job pj known hist cur n best c)).
      assert (forall b', consider_job pj known hist cur n best c = b' ->
        ((b' = best /\ ((forall sc, ~ scores pj known hist n c sc) \/
            exists r j sc' , best = Some (r, j, sc') /\ (ad_slot (jb_data c.2) = cur -> ad_slot (jb_data j) = cur))) \/
         exists sc, b' = Some (c, sc) /\ scores pj known hist n c sc /\
           (forall r' j' sc', best = Some (r', j', sc') -> ad_slot (jb_data j') = cur -> ad_slot (jb_data c.2) = cur))) as Hstep.
      { intros b' <-. unfold consider_job.
        destruct (passes_filters pj (jb_data c.2) known hist) eqn:Hf; cbn [negb].
        2:{ left. split; [done|]. left. intros sc [H _]. congruence. }
        destruct (score_entry pj (jb_data c.2) (jb_coverage c.2) n) as [[sc new]|] eqn:Hs.
        2:{ left. split; [done|]. left. intros sc [_ [new H]]. congruence. }
        assert (scores pj known hist n c sc) as Hsc by (split; [done|by exists new]).
        destruct best as [[[r j] sc']|].
        2:{ right. exists sc. destruct c. split; [done|]. split; [done|]. done. }
        destruct (job_key_lt (job_key cur (jb_data c.2) sc c.1) (job_key cur (jb_data j) sc' r)) eqn:Hk.
        - right. exists sc. destruct c as [cr cj]. split; [done|]. split; [done|]. intros r' j' sc'' [= <- <- <-] Hcur.
          unfold job_key_lt, job_key in Hk. cbn [fst snd] in *. rewrite Hcur, N.eqb_refl in Hk.
          destruct (N.eqb_spec (ad_slot (jb_data cj)) cur); [done|]. done.
        - left. split; [done|]. right. exists r, j, sc'. split; [done|]. intros Hcur.
          unfold job_key_lt, job_key in Hk. cbn [fst snd] in *. rewrite Hcur, N.eqb_refl in Hk.
          destruct (N.eqb_spec (ad_slot (jb_data j)) cur); [done|]. done. }
      destruct (Hstep _ eq_refl) as [[Heq Hc]|(sc0 & Heq & Hsc & Hcur)]; rewrite Heq in IH |- *.
      + destruct (fold_left _ cands best) as [[[r j] sc]|].
        * destruct IH as (I1 & I2 & I3). split_and!.
          -- destruct I1 as [I1|[I1 I1']]; [by left|right]. split; [by right|done].
          -- intros c' sc' Hc' Hs' Hsl. apply elem_of_cons in Hc' as [->|Hc']; [|by eapply I2].
             destruct Hc as [Hc|(r1 & j1 & sc1 & Hb & Hj1)]; [by destruct (Hc sc')|]. eapply I3; [exact Hb|by apply Hj1].
          -- exact I3.
        * destruct IH as [I1 I2]. split; [done|]. intros c' sc Hc'. apply elem_of_cons in Hc' as [->|Hc']; [|by apply I2].
          destruct Hc as [Hc|(r1 & j1 & sc1 & Hb & _)]; [done|congruence].
      + destruct c as [cr cj]. destruct (fold_left _ cands (Some (cr, cj, sc0))) as [[[r j] sc]|].
        * destruct IH as (I1 & I2 & I3). split_and!.
          -- destruct I1 as [[= <- <- <-]|[I1 I1']]; right; [split; [left|done]|split; [by right|done]].
          -- intros c' sc' Hc' Hs' Hsl. apply elem_of_cons in Hc' as [->|Hc']; [|by eapply I2].
             by eapply (I3 cr cj sc0).
          -- intros r' j' sc' Hb Hsl. eapply (I3 cr cj sc0); [done|]. by eapply Hcur.
        * by destruct IH.
  Qed.
  Lemma pick_job_spec pj known hist cur n cands :
    match pick_job pj known hist cur n cands with
    | None => forall c sc, c ∈ cands -> ~ scores pj known hist n c sc
    | Some (r, j, sc) => (r, j) ∈ cands /\ scores pj known hist n (r, j) sc /\
        (forall c sc', c ∈ cands -> scores pj known hist n c sc' -> ad_slot (jb_data c.2) = cur -> ad_slot (jb_data j) = cur)
    end.
  Proof.
    unfold pick_job. pose proof (pick_job_fold pj known hist cur n cands None) as H.
    destruct (fold_left _ cands None) as [[[r j] sc]|].
    - destruct H as ([H1|[H1 H2]] & H3 & _); [done|]. done.
    - by apply H.
  Qed.

  Let id_order : forall d : AttestationData, an_order ((fun _ _ l => l) d).
  Proof. intros d k l. done. Qed.
  Lemma job_rounds_spec k pj known hist cur n cands :
    lenN hist <= HISTORICAL_ROOTS_LIMIT + 1 -> NoDup (map fst cands) ->
    exists js, job_rounds k pj known hist cur n cands = Ok js /\ (length js <= k)%nat /\
      exists rs, NoDup rs /\ Forall2 (fun r j => (r, j) ∈ cands) rs js /\
      (forall j js', js = j :: js' -> forall c sc, c ∈ cands -> scores pj known hist n c sc ->
        ad_slot (jb_data c.2) = cur -> ad_slot (jb_data j) = cur) /\
      (js = [] -> (0 < k)%nat -> forall c sc, c ∈ cands -> ~ scores pj known hist n c sc).
  Proof.
    intros Hl. revert pj cands. induction k as [|k IH]; intros pj cands Hnd; cbn [job_rounds].
    - exists []. split; [done|]. split; [done|]. exists []. split_and!; [constructor|constructor|done|lia].
    - pose proof (pick_job_spec pj known hist cur n cands) as Hp.
      destruct (pick_job pj known hist cur n cands) as [[[r j] sc]|].
      2:{ exists []. split; [done|]. split; [cbn; lia|]. exists []. split_and!; [constructor|constructor|done|done]. }
      destruct Hp as (Hin & Hsc & Hcur). destruct Hsc as [Hf [new Hsc]]. cbn [snd] in Hf.
      apply (filters_spec _ id_order) in Hf as (_ & Ht & _).
      destruct (advance_ok _ id_order pj (sc_tier sc) (jb_data j) (jb_coverage j)) as [pj' ->]; [lia|].
      set (cands' := List.filter (fun c => negb (c.1 =? r)) cands).
      assert (forall c, c ∈ cands' <-> c ∈ cands /\ c.1 <> r) as Hc'.
      { intros c. unfold cands'. rewrite lfilter_elem, negb_true_iff, N.eqb_neq. done. }
      destruct (IH pj' cands') as (js & -> & Hlen & rs & R1 & R2 & _).
      { unfold cands'. clear -Hnd. induction cands as [|c cands IH]; [done|]. cbn in *.
        apply NoDup_cons in Hnd as [H1 H2]. destruct (negb _); [|by apply IH]. cbn. apply NoDup_cons. split; [|by apply IH].
        intros H. apply H1. apply elem_of_map in H as (x & -> & H). apply lfilter_elem in H as [H _]. apply elem_of_map. by exists x. }
      cbn [rbind]. exists (j :: js). split; [done|]. split; [cbn; lia|].
      exists (r :: rs). split_and!.
      + constructor; [|done]. intros H. apply elem_of_list_lookup in H as [i Hi].
        destruct (Forall2_lookup_l _ _ _ _ _ R2 Hi) as (j' & _ & Hj'). apply Hc' in Hj' as [_ Hj']. done.
      + constructor; [done|]. eapply Forall2_impl; [exact R2|]. cbn. intros r' j' H. by apply Hc' in H as [H _].
      + by intros j0 js0 [= <- <-].
      + done.
  Qed.
End Jobs.

Lemma sublist_nodup {A} (l k : list A) : sublist l k -> NoDup k -> NoDup l.
Proof.
  induction 1 as [|x l k H IH|x l k H IH]; intros Hn; [done| |]; apply NoDup_cons in Hn as [H1 H2]; [|by apply IH].
  constructor; [|by apply IH]. intros Hx. apply H1. eapply elem_of_submseteq; [exact Hx|by apply sublist_submseteq].
Qed.

(** *** Signatures in the pool are valid *)
Section Sigs.
  Context (E : Env) (gt : N) (vals : list Validator).
  Context (Hgood : good_hash (e_header E)) (Hvals : lenN vals <= VALIDATOR_REGISTRY_LIMIT) (Hinj : inj_data E).
  Notation node_inv := (node_inv E gt vals).

  Definition valid_sig (d : AttestationData) (v s : N) : Prop :=
    exists k, has_key E vals v k /\ ad_slot d < two32 /\ e_sig_valid E k (ad_slot d) (e_data E d) s = true.
  Definition sound_sigs (n : Node) : Prop :=
    forall d v s, sig_of (nd_gossip n) (e_data E d) v = Some s -> valid_sig d v s.
  Definition fewer (n n' : Node) : Prop :=
    forall r v s, sig_of (nd_gossip n') r v = Some s -> sig_of (nd_gossip n) r v = Some s.

  Lemma fewer_refl n : fewer n n.
  Proof. by intros r v s. Qed.
  Lemma fewer_trans a b c : fewer a b -> fewer b c -> fewer a c.
  Proof. intros H1 H2 r v s H. by apply H1, H2. Qed.
  Lemma fewer_sound n n' : fewer n n' -> sound_sigs n -> sound_sigs n'.
  Proof. intros H1 H2 d v s H. by apply H2, H1. Qed.
  Lemma fewer_same n n' : nd_gossip n' = nd_gossip n -> fewer n n'.
  Proof. intros H r v s. by rewrite H. Qed.

  Lemma prune_pools_fewer n adv n' : mem_inv E n -> prune_pools n adv = Ok n' -> fewer n n'.
  Proof.
    intros (_ & _ & H3) H. destruct adv as [f|]; cbn in H; [|apply Ok_inj in H as <-; apply fewer_refl].
    destruct (prune_sigs_spec _ f _ H3) as (g & k & Hg & _ & _ & Hd). rewrite Hg in H. cbn [rbind] in H.
    apply rbind_Ok in H as (nw & _ & H). apply rbind_Ok in H as (kn & _ & H). apply Ok_inj in H as <-.
    intros r v s. cbn. unfold sig_of. destruct (bf_data g !! r) as [e|] eqn:He; [|done].
    apply Hd in He as [-> _]. done.
  Qed.
  Lemma update_head_fewer n n' : mem_inv E n -> update_head n = Ok n' -> fewer n n'.
  Proof.
    intros Hm H. unfold update_head in H. apply rbind_Ok in H as (h & _ & H). apply rbind_Ok in H as (o & _ & H).
    apply expect_Ok in H. unfold update_checkpoints in H. apply rbind_Ok in H as (d & _ & H).
    eapply (prune_pools_fewer (with_db n _)); [exact Hm|exact H].
  Qed.
  Lemma accept_fewer n n' : mem_inv E n -> accept_new_attestations E n = Ok n' -> fewer n n'.
  Proof.
    intros (H1 & H2 & H3) H. unfold accept_new_attestations in H. apply rbind_Ok in H as ([nw kn] & Hp & H).
    cbn [fst snd] in H. destruct (promote_ok E _ _ H1 H2) as (nw' & kn' & Hp' & O1 & O2).
    rewrite Hp in Hp'. apply Ok_inj in Hp'. injection Hp' as <- <-.
    eapply (fewer_trans _ (mkNode _ _ nw kn (nd_gossip n))); [by apply fewer_same|].
    eapply update_head_fewer; [|exact H]. by split.
  Qed.
  Lemma tick_once_fewer n hp last n' : mem_inv E n -> tick_once E n hp last = Ok n' -> fewer n n'.
  Proof.
    intros Hi H. unfold tick_once in H. set (n1 := with_db _ _) in *.
    assert (mem_inv E n1) as Hm by apply Hi.
    assert (accept_new_attestations E n1 = Ok n' -> fewer n n') as Ha.
    { intros H'. eapply (fewer_trans _ n1); [by apply fewer_same|]. by apply accept_fewer. }
    assert (Ok n1 = Ok (E := unit) n' -> fewer n n') as Hk by (intros Heq; apply Ok_inj in Heq as <-; by apply fewer_same).
    destruct (interval_of _); auto.
    - destruct (hp && last); auto.
    - unfold update_safe_target in H. apply rbind_Ok in H as (o & _ & H). destruct o as [s|]; [|done].
      destruct (safe_target _ _ _ _); [|done]. apply Ok_inj in H as <-. by apply fewer_same.
  Qed.
  Lemma tick_loop_fewer A As w k n hp n' : node_inv A As w n -> tick_loop E k n hp = Ok n' -> fewer n n'.
  Proof.
    revert n. induction k as [|k IH]; intros n Hi H; cbn [tick_loop] in H; [apply Ok_inj in H as <-; apply fewer_refl|].
    apply rbind_Ok in H as (n1 & H1 & H).
    destruct (tick_once_step E gt vals Hgood Hvals _ _ _ _ hp (match k with O => true | _ => false end) Hi) as (n2 & H2 & Hst & _).
    rewrite H1 in H2. apply Ok_inj in H2 as <-.
    eapply fewer_trans; [eapply tick_once_fewer; [apply Hi|exact H1]|]. eapply IH; [exact (so_inv _ _ _ _ _ _ _ _ _ Hst)|exact H].
  Qed.
  Lemma on_tick_fewer A As w n ts hp n' : node_inv A As w n -> on_tick E n ts hp = Ok n' -> fewer n n'.
  Proof.
    intros Hi H. unfold on_tick in H. set (n1 := if _ <? _ then _ else n) in H.
    assert (fewer n n1) as Hs1 by (unfold n1; destruct (_ <? _); [by apply fewer_same|apply fewer_refl]).
    assert (node_inv A As w n1) as Hi1.
    { unfold n1. destruct (N.ltb_spec INTERVALS_PER_SLOT ((ts - db_gt (nd_db n) * 1000) / MILLISECONDS_PER_INTERVAL - db_time (nd_db n))); [|done].
      apply (time_step E gt vals Hvals A As w n); [done|]. lia. }
    eapply fewer_trans; [exact Hs1|]. by eapply tick_loop_fewer.
  Qed.
  Lemma insert_batch_gossip n l n' : insert_new_batch E n l = Ok n' -> nd_gossip n' = nd_gossip n.
  Proof.
    revert n. induction l as [|[d p] l IH]; intros n H; cbn [insert_new_batch] in H; [by apply Ok_inj in H as <-|].
    apply rbind_Ok in H as (n1 & H1 & H). rewrite (IH _ H).
    unfold insert_new_aggregated_payload in H1. apply rbind_Ok in H1 as (b & _ & H1). by apply Ok_inj in H1 as <-.
  Qed.

  Lemma state_vals A As w n r s :
    node_inv A As w n -> read_state (tab n) r = Ok (Some s) -> s_validators s = vals.
  Proof.
    intros Hi Ho. destruct (w !! r) as [s0|] eqn:Hw.
    - pose proof (w_read E gt vals _ _ _ _ _ _ (proj1 Hi) Hw) as Hr. unfold tab in Ho. rewrite Hr in Ho.
      apply Ok_inj in Ho. injection Ho as <-.
      by destruct (w_chain_facts E gt vals Hgood _ _ _ _ _ _ (proj1 Hi) Hw) as (_ & _ & _ & Hv & _).
    - pose proof (w_read_none E gt vals _ _ _ _ _ (proj1 Hi) Hw) as Hr. unfold tab in Ho. rewrite Hr in Ho. done.
  Qed.

  Lemma attestation_sigs A As w n sa agg n' :
    node_inv A As w n -> sound_sigs n -> on_gossip_attestation E n sa agg = Ok n' -> sound_sigs n'.
  Proof.
    intros Hn Hs H. unfold on_gossip_attestation in H.
    apply rbind_Ok in H as (_ & _ & H). apply rbind_Ok in H as (o & Ho & H).
    destruct o as [ts|]; [|done]. apply expect_Ok in Ho. rewrite (state_vals _ _ _ _ _ _ Hn Ho) in H.
    rewrite getN_lookup in H. set (a := sa_data sa) in *. set (v := sa_validator sa) in *.
    destruct (vals !! N.to_nat v) as [x|] eqn:Hx; [|done].
    destruct (e_key_ok E (v_att_key x)) eqn:Hko; [|done]. cbn [negb] in H.
    destruct (N.leb_spec two32 (ad_slot a)); [done|]. destruct (e_sig_ok E _); [|done]. cbn [negb] in H.
    destruct (e_sig_valid E _ _ _ _) eqn:Hsv; [|done]. cbn [negb] in H.
    destruct agg; [|by apply Ok_inj in H as <-].
    apply rbind_Ok in H as (g & Hg & H). apply expect_Ok in Hg. apply Ok_inj in H as <-.
    destruct (insert_spec (e_data E) (nd_gossip n) a v (sa_sig sa)) as (g' & Hg' & _ & _ & k & _ & _ & Hd & _); [apply Hn|].
    rewrite Hg in Hg'. apply Ok_inj in Hg' as <-.
    intros d u s. cbn. unfold sig_of. rewrite Hd, without_lookup.
    match goal with |- context [if ?c then None else _] => destruct c; [done|] end.
    destruct (decide (e_data E a = e_data E d)) as [Heq|Hne].
    - rewrite Heq, lookup_insert. cbn [ge_sigs]. destruct (decide (u = v)) as [->|Hu].
      + rewrite lookup_insert. intros [= <-]. apply Hinj in Heq. rewrite <- Heq. exists (v_att_key x).
        split; [by exists x|]. split; [lia|done].
      + rewrite lookup_insert_ne by done. intros Hl. apply Hs. unfold sig_of. revert Hl. rewrite <- Heq.
        destruct (bf_data (nd_gossip n) !! e_data E a); cbn; [done|]. by rewrite lookup_empty.
    - rewrite lookup_insert_ne by done. intros Hl. by apply Hs.
  Qed.

  Lemma step_sigs A As w n e n' : node_inv A As w n -> sound_sigs n -> node_step E n e = Ok n' -> sound_sigs n'.
  Proof.
    intros Hn Hs H. destruct e as [sb|sb|ts hp|sa agg|sg|l keys|slot| |]; cbn [node_step] in H.
    - apply keep_Ok in H as [H|[_ ->]]; [|done]. unfold on_block in H. apply rbind_Ok in H as (o & Hc & H).
      destruct o as [post|]; [|by apply Ok_inj in H as <-].
      apply rbind_Ok in H as (d1 & _ & H). apply rbind_Ok in H as (d3 & _ & H). apply expect_Ok in H.
      apply update_head_fewer in H; [|apply Hn]. by eapply fewer_sound.
    - destruct (pends _ _); apply Ok_inj in H as <-; done.
    - apply (on_tick_fewer A As w) in H; [|done]. by eapply fewer_sound.
    - apply keep_Ok in H as [H|[_ ->]]; [|done]. by eapply attestation_sigs.
    - apply keep_Ok in H as [H|[_ ->]]; [|done]. unfold on_gossip_aggregated_attestation in H.
      apply rbind_Ok in H as (_ & _ & H). apply rbind_Ok in H as (o & _ & H). destruct o as [ts|]; [|done].
      destruct (validator_indices _); [done|]. destruct (att_keys _ _); [|done].
      destruct (negb _); [done|]. destruct (two32 <=? _); [done|]. destruct (negb _); [done|].
      apply expect_Ok in H. unfold insert_new_aggregated_payload in H. apply rbind_Ok in H as (b & _ & H).
      apply Ok_inj in H as <-. done.
    - apply rbind_Ok in H as (n1 & H1 & H). apply rbind_Ok in H as (g & Hg & H). apply Ok_inj in H as <-.
      apply insert_batch_gossip in H1. rewrite H1 in Hg.
      destruct (delete_spec (e_data E) (nd_gossip n) keys) as (g' & Hg' & _ & _ & Hd); [apply Hn|].
      rewrite Hg in Hg'. apply Ok_inj in Hg' as <-. intros d v s. cbn. rewrite Hd. case_bool_decide; [done|]. apply Hs.
    - apply rbind_Ok in H as ([n2 h] & H & Heq). apply Ok_inj in Heq as <-. cbn [fst].
      unfold get_proposal_head in H. apply rbind_Ok in H as (n1 & H1 & H). apply rbind_Ok in H as (n3 & H2 & H).
      apply Ok_inj in H. injection H as <- _.
      destruct (on_tick_step E gt vals Hgood Hvals _ _ _ _ (db_gt (nd_db n) * 1000 + slot * MILLISECONDS_PER_SLOT) true Hn) as (n1' & Ht & Hst & _).
      pose proof H1 as H1'. rewrite Ht in H1. apply Ok_inj in H1 as ->.
      apply accept_fewer in H2; [|apply (so_inv _ _ _ _ _ _ _ _ _ Hst)].
      apply (on_tick_fewer A As w) in H1'; [|done]. eapply fewer_sound; [|exact Hs]. by eapply fewer_trans.
    - apply rbind_Ok in H as (d & _ & H). apply Ok_inj in H as <-. done.
    - apply Ok_inj in H as <-. intros d v s. cbn. unfold sig_of. cbn. by rewrite lookup_empty.
  Qed.

  (** *** Sessions of a reachable node *)
  Lemma snapshot_ok iter_raw n groups keys cur k :
    (forall l, iter_raw l ≡ₚ l) -> reachable E gt vals n -> in_some_order n groups keys ->
    exists js, snapshot_aggregation_inputs E iter_raw n groups keys cur k = Ok js /\
      (length js <= k)%nat /\ NoDup (map jb_data js) /\
      forall j, j ∈ js -> candidate_of E n vals (e_data E (jb_data j), j).
  Proof.
    intros Hiter Hr [(es & Hes & Hf) Hk].
    destruct (reachable_inv E gt vals Hgood Hvals n Hr) as (A & As & w & Hn & _).
    destruct Hn as [Hi (M1 & M2 & M3)].
    assert (forall r d sigs, (r, d, sigs) ∈ groups -> r = e_data E d /\ forall v s, (v, s) ∈ sigs <-> sig_of (nd_gossip n) r v = Some s) as Hgr.
    { intros r d sigs Hin. apply elem_of_list_lookup in Hin as [i Hin].
      destruct (Forall2_lookup_r _ _ _ _ _ Hf Hin) as ([r' e] & He & H1 & H2 & H3). cbn [fst snd] in *. subst r' d.
      apply elem_of_list_lookup_2 in He. rewrite Hes, elem_of_map_to_list in He.
      split; [symmetry; by eapply so_key|]. intros v s. rewrite H3, elem_of_map_to_list. unfold sig_of. by rewrite He. }
    assert (NoDup (map (fun g : H256 * AttestationData * list (N * N) => g.1.1) groups)) as Hnd1.
    { assert (map (fun g : H256 * AttestationData * list (N * N) => g.1.1) groups = map fst es) as ->.
      { clear -Hf. induction Hf as [|e g es gs [H _] _ IH]; [done|]. cbn. by rewrite IH, H. }
      pose proof (NoDup_fst_map_to_list (bf_data (nd_gossip n))) as H. rewrite <- Hes in H. exact H. }
    assert (forall r d, (r, d) ∈ keys -> r = e_data E d) as Hke.
    { intros r d Hin. rewrite Hk in Hin. apply elem_of_map in Hin as ([r' e] & [= -> ->] & He).
      apply elem_of_map_to_list in He. symmetry. exact (po_key _ _ M1 _ _ He). }
    assert (NoDup (map fst keys)) as Hnd2.
    { rewrite Hk, map_map. cbn. apply NoDup_fst_map_to_list. }
    unfold snapshot_aggregation_inputs.
    set (rest := let! o := expect _ in _).
    assert (exists js, rest = Ok js /\ (length js <= k)%nat /\ NoDup (map jb_data js) /\
      forall j, j ∈ js -> candidate_of E n vals (e_data E (jb_data j), j)) as Hrest.
    2:{ destruct groups; [|exact Hrest]. destruct keys; [|exact Hrest]. exists []. split; [done|]. split; [cbn; lia|].
        split; [constructor|]. intros j H. by inversion H. }
    unfold rest. clear rest.
    destruct (di_head _ _ _ _ _ _ _ Hi) as [s Hs]. pose proof (w_read E gt vals _ _ _ _ _ _ Hi Hs) as Hread.
    unfold tab. rewrite Hread. cbn [expect rbind].
    destruct (w_chain_facts E gt vals Hgood _ _ _ _ _ _ Hi Hs) as (_ & _ & _ & Hvs & _). rewrite Hvs.
    destruct (gossip_cands E iter_raw Hiter n vals groups Hgr) as (c1 & -> & F1 & S1). cbn [rbind].
    destruct (payload_cands E iter_raw Hiter n vals c1 keys Hke) as (c2 & -> & F2 & S2 & N2). cbn [rbind].
    set (known := map _ (map_to_list (t_live _))).
    assert (lenN (s_hist s ++ [db_head (nd_db n)]) <= HISTORICAL_ROOTS_LIMIT + 1) as Hlim.
    { destruct (di_chain _ _ _ _ _ _ _ Hi _ _ Hs) as (raw & bs & Hc & ->).
      pose proof (cf_limit _ _ _ _ _ _ _ (chain_has_facts _ _ _ _ _ _ _ Hc)) as Hl.
      unfold lenN in *. rewrite app_length. cbn [length]. change (s_hist (NodeProofs.seal E raw)) with (s_hist raw). lia. }
    destruct (job_rounds_spec k (from_head_state s) known _ cur (lenN vals) (c1 ++ c2) Hlim) as (js & -> & Hlen & rs & R1 & R2 & _).
    { rewrite map_app. apply NoDup_app. split_and!.
      - eapply sublist_nodup; [exact S1|done].
      - intros r H1 H2. by apply (N2 r).
      - eapply sublist_nodup; [exact S2|done]. }
    exists js. split; [done|]. split; [done|].
    assert (Forall2 (fun r j => r = e_data E (jb_data j) /\ candidate_of E n vals (r, j)) rs js) as R3.
    { eapply Forall2_impl; [exact R2|]. cbn. intros r j Hin.
      assert (candidate_of E n vals (r, j)) as Hc.
      { apply elem_of_app in Hin as [Hin|Hin]; [by eapply (proj1 (Forall_forall _ _) F1)|by eapply (proj1 (Forall_forall _ _) F2)]. }
      split; [|done]. by destruct Hc as (sg & _ & H & _). }
    split.
    - assert (rs = map (e_data E) (map jb_data js)) as Hrs.
      { clear -R3. induction R3 as [|r j rs js [H _] _ IH]; [done|]. cbn. by rewrite H, IH. }
      rewrite Hrs in R1. by apply NoDup_fmap_1 in R1.
    - intros j Hj. apply elem_of_list_lookup in Hj as [i Hj].
      destruct (Forall2_lookup_r _ _ _ _ _ R3 Hj) as (r & _ & -> & H). done.
  Qed.
End Sigs.
