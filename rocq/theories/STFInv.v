(** The attestation loop: invariant, absence of panics, step characterisation. *)
From Verif Require Export STFProofs.

Global Instance frame_refl : Reflexive frame.
Proof. intros s. by split. Qed.
Global Instance frame_trans : Transitive frame.
Proof. intros s1 s2 s3 [] []. split; congruence. Qed.

Notation Fs s := (cp_slot (s_finalized s)).
Notation Js s := (cp_slot (s_justified s)).

(** Invariant of the loop; [inc r v]: validator [v] has an included vote for
    target root [r]. *)
Record loop_inv (inc : N -> N -> Prop) (s : State) (m : Tallies) : Prop := {
  li_n : (0 < length (s_validators s))%nat;
  li_win : lenN (s_jslots s) + Fs s + 1 = lenN (s_hist s);
  li_fj : Fs s <= Js s;
  li_jl : Js s < lenN (s_hist s);
  li_F : root_at s (Fs s) = Some (cp_root (s_finalized s));
  li_J : root_at s (Js s) = Some (cp_root (s_justified s));
  li_Jst : slot_justified s (Js s);
  li_m : forall r vs, m !! r = Some vs ->
    length vs = length (s_validators s) /\ r <> ZERO /\
    (exists t, Fs s < t /\ root_at s t = Some r) /\
    (forall v, vs !! N.to_nat v = Some true -> inc r v);
  li_sup : forall t, Fs s < t -> slot_justified s t ->
    exists r, root_at s t = Some r /\ r <> ZERO /\
      two_thirds (lenN (s_validators s)) (inc r);
  li_supJ : 0 < Js s -> two_thirds (lenN (s_validators s)) (inc (cp_root (s_justified s)));
  li_supF : 0 < Fs s -> two_thirds (lenN (s_validators s)) (inc (cp_root (s_finalized s)));
  li_J0 : 0 < Js s -> cp_root (s_justified s) <> ZERO;
  li_F0 : 0 < Fs s -> cp_root (s_finalized s) <> ZERO
}.

Lemma mark_votes_length vs bits : length (mark_votes vs bits) = length vs.
Proof.
  revert bits. induction vs as [|v vs IH]; intros [|b bits]; cbn; [done..|].
  by rewrite IH.
Qed.
Lemma mark_votes_lookup vs bits i :
  mark_votes vs bits !! i = Some true <->
  vs !! i = Some true \/ ((i < length vs)%nat /\ bits !! i = Some true).
Proof.
  revert bits i. induction vs as [|v vs IH]; intros bits i.
  - change (mark_votes [] bits) with (@nil bool). rewrite lookup_nil.
    split; [done|]. intros [?|[Hl ?]]; [done|cbn in Hl; lia].
  - destruct bits as [|b bits].
    + change (mark_votes (v :: vs) []) with (v :: vs). rewrite lookup_nil.
      split; [tauto|]. intros [?|[? ?]]; done.
    + destruct i as [|i]; cbn.
      * split.
        -- intros [= Hvb]. destruct v; [by left|]. right. split; [lia|]. cbn in Hvb. by rewrite Hvb.
        -- intros [[= ->]|[_ [= ->]]]; [done|]. by rewrite orb_true_r.
      * rewrite IH. split; intros [?|[? ?]]; try tauto; right; split; try done; lia.
Qed.

Lemma valid_vote_true s d :
  is_valid_vote s d = Ok true <->
  slot_justified s (cp_slot (ad_source d)) /\
  slot_tracked_unjustified s (cp_slot (ad_target d)) /\
  attestation_data_matches_chain (s_hist s) d = true /\
  cp_slot (ad_source d) < cp_slot (ad_target d) /\
  slot_is_justifiable_after (cp_slot (ad_target d)) (Fs s) = true.
Proof.
  unfold is_valid_vote, slot_justified, slot_tracked_unjustified.
  rewrite !is_slot_justified_status.
  destruct (status _ _ (cp_slot (ad_source d))) as [[]|]; cbn;
    [|split; [done|intros (?&_); done]..].
  destruct (status _ _ (cp_slot (ad_target d))) as [[]|]; cbn;
    [split; [done|intros (_&?&_); done]| |split; [done|intros (_&?&_); done]].
  destruct (attestation_data_matches_chain _ d); cbn;
    [|split; [done|intros (_&_&?&_); done]].
  destruct (N.leb_spec (cp_slot (ad_target d)) (cp_slot (ad_source d)));
    [split; [done|lia]|].
  destruct (slot_is_justifiable_after _ _); cbn; [|split; [done|intros (_&_&_&_&?); done]].
  split; [|done]. intros _. repeat split; done.
Qed.

Lemma matches_chain_true hist d :
  attestation_data_matches_chain hist d = true <->
  (cp_root (ad_source d) <> ZERO /\ cp_root (ad_target d) <> ZERO /\ cp_root (ad_head d) <> ZERO) /\
  hist !! N.to_nat (cp_slot (ad_source d)) = Some (cp_root (ad_source d)) /\
  hist !! N.to_nat (cp_slot (ad_target d)) = Some (cp_root (ad_target d)) /\
  hist !! N.to_nat (cp_slot (ad_head d)) = Some (cp_root (ad_head d)).
Proof.
  unfold attestation_data_matches_chain. rewrite !getN_lookup.
  destruct (N.eqb_spec (cp_root (ad_source d)) ZERO); cbn; [split; [done|tauto]|].
  destruct (N.eqb_spec (cp_root (ad_target d)) ZERO); cbn; [split; [done|tauto]|].
  destruct (N.eqb_spec (cp_root (ad_head d)) ZERO); cbn; [split; [done|tauto]|].
  destruct (hist !! N.to_nat (cp_slot (ad_source d))) as [x|];
    [|split; [done|intros (_&?&_); done]].
  destruct (hist !! N.to_nat (cp_slot (ad_target d))) as [y|];
    [|split; [done|intros (_&_&?&_); done]].
  destruct (hist !! N.to_nat (cp_slot (ad_head d))) as [z|];
    [|split; [done|intros (_&_&_&?); done]].
  rewrite !andb_true_iff, !N.eqb_eq. split.
  - intros [[-> ->] ->]. done.
  - intros (_ & [= ->] & [= ->] & [= ->]). done.
Qed.

Lemma any_justifiable_spec k a fin :
  any_justifiable k a fin = true <->
  exists t, a <= t < a + N.of_nat k /\ slot_is_justifiable_after t fin = true.
Proof.
  revert a. induction k as [|k IH]; intros a; cbn.
  - split; [done|]. intros (t & ? & _). lia.
  - rewrite orb_true_iff, IH. split.
    + intros [H|(t & Ht & H)]; [exists a|exists t]; (split; [lia|done]).
    + intros (t & Ht & H). destruct (decide (t = a)) as [->|]; [by left|right].
      exists t. split; [lia|done].
Qed.

(** Relational description of one successful iteration. *)
Definition votes_for (s : State) (m : Tallies) (r : H256) : list bool :=
  match m !! r with Some v => v | None => replicate (length (s_validators s)) false end.

Inductive one_step (s : State) (m : Tallies) (a : AggAtt) : State -> Tallies -> Prop :=
| os_ignored :
    is_valid_vote s (at_data a) = Ok false -> one_step s m a s m
| os_counted votes :
    is_valid_vote s (at_data a) = Ok true ->
    count_true (at_bits a) <> 0 ->
    has_oob_bit (length (s_validators s)) (at_bits a) = false ->
    votes = mark_votes (votes_for s m (cp_root (ad_target (at_data a)))) (at_bits a) ->
    3 * count_true votes < 2 * lenN (s_validators s) ->
    one_step s m a s (<[cp_root (ad_target (at_data a)) := votes]> m)
| os_justified votes s2 :
    is_valid_vote s (at_data a) = Ok true ->
    count_true (at_bits a) <> 0 ->
    has_oob_bit (length (s_validators s)) (at_bits a) = false ->
    votes = mark_votes (votes_for s m (cp_root (ad_target (at_data a)))) (at_bits a) ->
    2 * lenN (s_validators s) <= 3 * count_true votes ->
    (exists js, set_justified (s_jslots s) (Fs s) (cp_slot (ad_target (at_data a))) = Ok js /\
      s2 = with_jslots (with_justified s (max_cp (s_justified s) (ad_target (at_data a)))) js) ->
    (cp_slot (ad_source (at_data a)) <= Fs s \/
     exists t, cp_slot (ad_source (at_data a)) < t < cp_slot (ad_target (at_data a)) /\
       slot_is_justifiable_after t (Fs s) = true) ->
    one_step s m a s2 (delete (cp_root (ad_target (at_data a))) m)
| os_finalized votes s2 m' :
    is_valid_vote s (at_data a) = Ok true ->
    count_true (at_bits a) <> 0 ->
    has_oob_bit (length (s_validators s)) (at_bits a) = false ->
    votes = mark_votes (votes_for s m (cp_root (ad_target (at_data a)))) (at_bits a) ->
    2 * lenN (s_validators s) <= 3 * count_true votes ->
    Fs s < cp_slot (ad_source (at_data a)) ->
    (forall t, cp_slot (ad_source (at_data a)) < t < cp_slot (ad_target (at_data a)) ->
       slot_is_justifiable_after t (Fs s) = false) ->
    (exists js, set_justified (s_jslots s) (Fs s) (cp_slot (ad_target (at_data a))) = Ok js /\
      s2 = with_jslots (with_finalized (with_justified s (max_cp (s_justified s) (ad_target (at_data a))))
              (ad_source (at_data a)))
              (shift_window js (cp_slot (ad_source (at_data a)) - Fs s))) ->
    (forall r vs, m' !! r = Some vs <->
       m !! r = Some vs /\ r <> cp_root (ad_target (at_data a)) /\
       exists t, cp_slot (ad_source (at_data a)) < t /\ root_at s t = Some r) ->
    one_step s m a s2 m'.


Lemma process_one_spec F0 s m a s' m' :
  F0 <= Fs s ->
  process_one (root_to_slot (s_hist s) F0) (s, m) a = Ok (s', m') ->
  one_step s m a s' m'.
Proof.
  intros HF. unfold process_one.
  destruct (is_valid_vote s (at_data a)) as [ok|e|] eqn:Hv; [|done|done]. cbn [rbind].
  destruct ok; cbn [negb].
  2:{ intros [= <- <-]. by apply os_ignored. }
  destruct (N.eqb_spec (count_true (at_bits a)) 0) as [|Hne]; [done|].
  destruct (has_oob_bit _ _) eqn:Hoob; [done|].
  set (src := ad_source (at_data a)) in *. set (tgt := ad_target (at_data a)) in *.
  fold (votes_for s m (cp_root tgt)).
  set (votes := mark_votes (votes_for s m (cp_root tgt)) (at_bits a)).
  destruct (N.leb_spec (2 * N.of_nat (length (s_validators s))) (3 * count_true votes)) as [Hth|Hth].
  2:{ intros [= <- <-]. apply (os_counted _ _ _ votes); try done. }
  cbn [s_jslots s_finalized with_justified].
  destruct (set_justified (s_jslots s) (Fs s) (cp_slot tgt)) as [js|e|] eqn:Hjs; [|done|done].
  cbn [rbind]. unfold try_finalize. cbn [s_finalized with_jslots with_justified].
  rewrite delete_insert_delete.
  destruct (N.leb_spec (cp_slot src) (Fs s)) as [Hsrc|Hsrc].
  { intros [= <- <-]. eapply (os_justified _ _ _ votes); try done; [by eauto|by left]. }
  destruct (any_justifiable _ _ _) eqn:Haj.
  { intros [= <- <-]. eapply (os_justified _ _ _ votes); try done; [by eauto|right].
    apply any_justifiable_spec in Haj as (t & Ht & Htj). exists t. split; [|done].
    fold src tgt. lia. }
  intros [= <- <-]. eapply (os_finalized _ _ _ votes); try done.
  - intros t Ht. fold src tgt in Ht. apply not_true_iff_false. intros Htj.
    apply not_true_iff_false in Haj. apply Haj. apply any_justifiable_spec.
    exists t. split; [lia|done].
  - exists js. split; [done|]. done.
  - intros r vs. rewrite map_filter_lookup_Some, lookup_delete_Some. cbn [fst].
    fold src tgt. fold (keep_root (root_to_slot (s_hist s) F0) (cp_slot src) r).
    rewrite Is_true_true, keep_root_spec by lia. unfold root_at. naive_solver.
Qed.

(** The loop does not depend on where below the boundary the root table starts. *)
Lemma process_one_rts F0 F1 s m a :
  F0 <= Fs s -> F1 <= Fs s ->
  process_one (root_to_slot (s_hist s) F0) (s, m) a =
  process_one (root_to_slot (s_hist s) F1) (s, m) a.
Proof.
  intros H0 H1. unfold process_one.
  destruct (is_valid_vote s (at_data a)) as [ok|e|] eqn:Hv; [|done|done]. cbn [rbind].
  destruct ok; cbn [negb]; [|done].
  destruct (_ =? 0); [done|]. destruct (has_oob_bit _ _); [done|].
  destruct (_ <=? _); [|done].
  destruct (set_justified _ _ _) as [js|e|]; [|done|done]. cbn [rbind]. f_equal.
  unfold try_finalize. cbn [s_finalized with_jslots with_justified].
  destruct (N.leb_spec (cp_slot (ad_source (at_data a))) (Fs s)) as [|Hsrc]; [done|].
  destruct (any_justifiable _ _ _); [done|]. f_equal.
  apply map_filter_ext. intros r vs _. cbn [fst].
  fold (keep_root (root_to_slot (s_hist s) F0) (cp_slot (ad_source (at_data a))) r).
  fold (keep_root (root_to_slot (s_hist s) F1) (cp_slot (ad_source (at_data a))) r).
  rewrite !Is_true_true, !keep_root_spec by lia. done.
Qed.

Lemma one_step_frame s m a s' m' : one_step s m a s' m' -> frame s s' /\ s_jroots s' = s_jroots s /\ s_jvals s' = s_jvals s.
Proof.
  destruct 1 as [| |votes s2 _ _ _ _ _ (js & _ & ->) _|votes s2 m' _ _ _ _ _ _ _ (js & _ & ->) _];
    repeat split.
Qed.

Lemma max_cp_slot a b : cp_slot (max_cp a b) = N.max (cp_slot a) (cp_slot b).
Proof. unfold max_cp. destruct (N.ltb_spec (cp_slot b) (cp_slot a)); lia. Qed.

Lemma two_thirds_of_votes n (P : N -> Prop) vs :
  lenN vs = n -> 2 * n <= 3 * count_true vs ->
  (forall v, vs !! N.to_nat v = Some true -> P v) -> two_thirds n P.
Proof.
  intros Hlen Hc HP. exists (validator_indices vs). split; [apply validator_indices_NoDup|].
  split; [|by rewrite validator_indices_length].
  intros v Hv. apply validator_indices_spec in Hv. split; [|by apply HP].
  apply lookup_lt_Some in Hv. unfold lenN in Hlen. lia.
Qed.

Lemma status_true_tracked s t : slot_justified s t -> t <= Fs s + lenN (s_jslots s).
Proof. intros H. apply status_tracked. rewrite H. eauto. Qed.

(** All the votes counted for a target come from included attestations. *)
Lemma marked_votes_inc inc s m a :
  loop_inv inc s m ->
  (forall v, votes_in v a ->
     root_at s (cp_slot (ad_target (at_data a))) = Some (cp_root (ad_target (at_data a))) ->
     inc (cp_root (ad_target (at_data a))) v) ->
  is_valid_vote s (at_data a) = Ok true ->
  let votes := mark_votes (votes_for s m (cp_root (ad_target (at_data a)))) (at_bits a) in
  length votes = length (s_validators s) /\
  forall v, votes !! N.to_nat v = Some true -> inc (cp_root (ad_target (at_data a))) v.
Proof.
  intros Hinv Hinc Hv. apply valid_vote_true in Hv as (_ & _ & Hmc & _).
  apply matches_chain_true in Hmc as (_ & _ & Ht & _). cbn zeta.
  assert (length (votes_for s m (cp_root (ad_target (at_data a)))) = length (s_validators s)) as Hlen.
  { unfold votes_for. destruct (m !! _) eqn:Em; [|by rewrite replicate_length].
    by destruct (li_m _ _ _ Hinv _ _ Em) as [? _]. }
  split; [by rewrite mark_votes_length|].
  intros v [Hold|[_ Hnew]]%mark_votes_lookup.
  - unfold votes_for in Hold. destruct (m !! _) eqn:Em.
    + destruct (li_m _ _ _ Hinv _ _ Em) as (_ & _ & _ & H). by apply H.
    + apply lookup_replicate in Hold as [? _]. done.
  - by apply Hinc.
Qed.

Lemma loop_inv_step inc s m a s' m' :
  loop_inv inc s m ->
  (forall v, votes_in v a ->
     root_at s (cp_slot (ad_target (at_data a))) = Some (cp_root (ad_target (at_data a))) ->
     inc (cp_root (ad_target (at_data a))) v) ->
  one_step s m a s' m' ->
  loop_inv inc s' m' /\ Fs s <= Fs s' /\ Js s <= Js s'.
Proof.
  intros Hinv Hinc Hstep.
  destruct Hstep as [Hv|votes Hv Hne Hoob Hvotes Hth
    |votes s2 Hv Hne Hoob Hvotes Hth (js & Hjs & ->) _
    |votes s2 m' Hv Hne Hoob Hvotes Hth Hsrc Hgap (js & Hjs & ->) Hm'].
  - done.
  - destruct (marked_votes_inc _ _ _ _ Hinv Hinc Hv) as [Hlen Hvi].
    rewrite <- Hvotes in Hlen, Hvi.
    apply valid_vote_true in Hv as (Hsj & Hun & Hmc & Hlt & Hj).
    apply matches_chain_true in Hmc as ((Hz1 & Hz2 & Hz3) & Hs & Ht & Hh).
    split; [|done]. destruct Hinv. split; try done.
    intros r vs Hr. destruct (decide (r = cp_root (ad_target (at_data a)))) as [->|Hner].
    + rewrite lookup_insert in Hr. injection Hr as <-.
      split; [done|]. split; [done|]. split; [|done].
      exists (cp_slot (ad_target (at_data a))). split; [|done].
      unfold slot_tracked_unjustified in Hun.
      destruct (decide (cp_slot (ad_target (at_data a)) <= Fs s)) as [Hle|]; [|lia].
      rewrite status_le in Hun by done. done.
    + rewrite lookup_insert_ne in Hr by done. by apply li_m0.
  - destruct (marked_votes_inc _ _ _ _ Hinv Hinc Hv) as [Hlen Hvi].
    rewrite <- Hvotes in Hlen, Hvi.
    apply valid_vote_true in Hv as (Hsj & Hun & Hmc & Hlt & Hj).
    apply matches_chain_true in Hmc as ((Hz1 & Hz2 & Hz3) & Hs & Ht & Hh).
    assert (two_thirds (lenN (s_validators s)) (inc (cp_root (ad_target (at_data a))))) as Hsup.
    { eapply two_thirds_of_votes; [|done|done]. unfold lenN. by rewrite Hlen. }
    assert (cp_slot (ad_target (at_data a)) < lenN (s_hist s)) as Htl.
    { apply lookup_lt_Some in Ht. unfold lenN. lia. }
    pose proof (set_justified_spec _ _ _ _ Hjs) as Hst.
    pose proof (set_justified_length _ _ _ _ Hjs) as Hjl.
    destruct Hinv. split; [|cbn; rewrite max_cp_slot; lia]. split; cbn; try done.
    + by rewrite Hjl.
    + rewrite max_cp_slot. lia.
    + rewrite max_cp_slot. lia.
    + unfold max_cp. by destruct (_ <? _).
    + unfold slot_justified. cbn. rewrite Hst. unfold max_cp.
      destruct (_ <? _).
      * destruct (_ =? _); [done|]. done.
      * by rewrite N.eqb_refl.
    + intros r vs Hr. apply lookup_delete_Some in Hr as [_ Hr]. by apply li_m0.
    + intros t HFt Htj. unfold slot_justified in Htj. cbn in Htj. rewrite Hst in Htj.
      destruct (N.eqb_spec t (cp_slot (ad_target (at_data a)))) as [->|].
      * eexists. done.
      * by apply li_sup0.
    + unfold max_cp. destruct (_ <? _); [done|]. intros _. done.
    + unfold max_cp. destruct (_ <? _); [done|]. intros _. done.
  - destruct (marked_votes_inc _ _ _ _ Hinv Hinc Hv) as [Hlen Hvi].
    rewrite <- Hvotes in Hlen, Hvi.
    apply valid_vote_true in Hv as (Hsj & Hun & Hmc & Hlt & Hj).
    apply matches_chain_true in Hmc as ((Hz1 & Hz2 & Hz3) & Hs & Ht & Hh).
    assert (two_thirds (lenN (s_validators s)) (inc (cp_root (ad_target (at_data a))))) as Hsup.
    { eapply two_thirds_of_votes; [|done|done]. unfold lenN. by rewrite Hlen. }
    assert (cp_slot (ad_target (at_data a)) < lenN (s_hist s)) as Htl.
    { apply lookup_lt_Some in Ht. unfold lenN. lia. }
    pose proof (set_justified_spec _ _ _ _ Hjs) as Hst.
    pose proof (set_justified_length _ _ _ _ Hjs) as Hjl.
    assert (forall t, cp_slot (ad_source (at_data a)) < t ->
      status (shift_window js (cp_slot (ad_source (at_data a)) - Fs s))
        (cp_slot (ad_source (at_data a))) t = status js (Fs s) t) as Hsh.
    { intros t Htt. apply shift_window_spec; lia. }
    destruct Hinv.
    destruct (li_sup0 _ Hsrc Hsj) as (rs & Hrs & Hrs0 & Hsups).
    unfold root_at in Hrs. rewrite Hs in Hrs. injection Hrs as <-.
    split; [|cbn; rewrite max_cp_slot; lia]. split; cbn; try done.
    + rewrite shift_window_length, Hjl. lia.
    + rewrite max_cp_slot. lia.
    + rewrite max_cp_slot. lia.
    + unfold max_cp. by destruct (_ <? _).
    + unfold slot_justified. cbn. rewrite Hsh by (rewrite max_cp_slot; lia).
      rewrite Hst. unfold max_cp. destruct (_ <? _).
      * destruct (_ =? _); done.
      * by rewrite N.eqb_refl.
    + intros r vs Hr. apply Hm' in Hr as (Hr & _ & t & Htt & Hrt).
      destruct (li_m0 _ _ Hr) as (? & ? & _ & ?).
      split; [done|]. split; [done|]. split; [|done]. by exists t.
    + intros t HFt Htj. unfold slot_justified in Htj. cbn in Htj.
      rewrite Hsh, Hst in Htj by done.
      destruct (N.eqb_spec t (cp_slot (ad_target (at_data a)))) as [->|].
      * eexists. done.
      * apply li_sup0; [lia|done].
    + unfold max_cp. destruct (_ <? _); [done|]. intros _. done.
    + unfold max_cp. destruct (_ <? _); [done|]. intros _. done.
Qed.

Lemma process_one_no_panic inc rts s m a :
  loop_inv inc s m -> process_one rts (s, m) a <> Panic.
Proof.
  intros Hinv. unfold process_one.
  destruct (is_valid_vote s (at_data a)) as [ok|e|] eqn:Hv; cbn [rbind].
  - destruct ok; cbn [negb]; [|done].
    destruct (_ =? 0); [done|]. destruct (has_oob_bit _ _); [done|].
    destruct (_ <=? _); [|done]. cbn [s_jslots s_finalized with_justified].
    apply valid_vote_true in Hv as (Hsj & Hun & Hmc & Hlt & Hj).
    destruct (set_justified_ok (s_jslots s) (Fs s) (cp_slot (ad_target (at_data a)))) as [js ->];
      [|done].
    apply status_tracked. unfold slot_tracked_unjustified in Hun. rewrite Hun. eauto.
  - done.
  - exfalso. unfold is_valid_vote in Hv. rewrite !is_slot_justified_status in Hv.
    repeat (destruct (status _ _ _); cbn in Hv; try done).
    + destruct b; cbn in Hv; [|done]. destruct b0; [done|].
      destruct (negb _); [done|]. destruct (_ <=? _); [done|]. destruct (negb _); done.
    + by destruct b.
Qed.

Lemma process_all_inv inc F0 atts s m s' m' :
  loop_inv inc s m -> F0 <= Fs s ->
  (forall a v, a ∈ atts -> votes_in v a ->
     root_at s (cp_slot (ad_target (at_data a))) = Some (cp_root (ad_target (at_data a))) ->
     inc (cp_root (ad_target (at_data a))) v) ->
  process_all (root_to_slot (s_hist s) F0) (s, m) atts = Ok (s', m') ->
  loop_inv inc s' m' /\ Fs s <= Fs s' /\ Js s <= Js s' /\ frame s s' /\
  s_jroots s' = s_jroots s /\ s_jvals s' = s_jvals s.
Proof.
  revert s m. induction atts as [|a atts IH]; intros s m Hinv HF Hinc; cbn [process_all].
  - intros [= <- <-]. done.
  - intros H. apply rbind_Ok in H as ([s1 m1] & H1 & H2).
    apply process_one_spec in H1; [|done].
    destruct (loop_inv_step inc s m a s1 m1 Hinv) as (Hinv1 & HF1 & HJ1); [|exact H1|].
    { intros v. apply Hinc. left. }
    destruct (one_step_frame _ _ _ _ _ H1) as (Hfr & Hr & Hvs).
    rewrite <- (fr_hist _ _ Hfr) in H2.
    destruct (IH s1 m1) as (? & ? & ? & ? & ? & ?); try done; [lia| |].
    { intros a' v Ha' Hvi. unfold root_at. rewrite (fr_hist _ _ Hfr). apply Hinc; [by right|done]. }
    split; [done|]. split; [lia|]. split; [lia|]. split; [by etrans|].
    split; congruence.
Qed.

Lemma process_all_no_panic inc F0 atts s m :
  loop_inv inc s m -> F0 <= Fs s ->
  (forall a v, a ∈ atts -> votes_in v a ->
     root_at s (cp_slot (ad_target (at_data a))) = Some (cp_root (ad_target (at_data a))) ->
     inc (cp_root (ad_target (at_data a))) v) ->
  process_all (root_to_slot (s_hist s) F0) (s, m) atts <> Panic.
Proof.
  revert s m. induction atts as [|a atts IH]; intros s m Hinv HF Hinc; cbn [process_all]; [done|].
  intros H. apply rbind_Panic in H as [H|([s1 m1] & H1 & H2)].
  - by eapply process_one_no_panic.
  - apply process_one_spec in H1; [|done].
    destruct (loop_inv_step inc s m a s1 m1 Hinv) as (Hinv1 & HF1 & HJ1); [|exact H1|].
    { intros v. apply Hinc. left. }
    destruct (one_step_frame _ _ _ _ _ H1) as (Hfr & Hr & Hvs).
    rewrite <- (fr_hist _ _ Hfr) in H2.
    eapply (IH s1 m1); try done; [lia|].
    intros a' v Ha' Hvi. unfold root_at. rewrite (fr_hist _ _ Hfr). apply Hinc; [by right|done].
Qed.

Lemma process_all_rts F0 F1 atts inc s m :
  loop_inv inc s m ->
  F0 <= Fs s -> F1 <= Fs s ->
  (forall a v, a ∈ atts -> votes_in v a ->
     root_at s (cp_slot (ad_target (at_data a))) = Some (cp_root (ad_target (at_data a))) ->
     inc (cp_root (ad_target (at_data a))) v) ->
  process_all (root_to_slot (s_hist s) F0) (s, m) atts =
  process_all (root_to_slot (s_hist s) F1) (s, m) atts.
Proof.
  revert s m. induction atts as [|a atts IH]; intros s m Hinv H0 H1 Hinc; cbn [process_all]; [done|].
  rewrite (process_one_rts F0 F1) by done.
  destruct (process_one _ _ _) as [[s1 m1]|e|] eqn:E; [|done|done]. cbn [rbind].
  apply process_one_spec in E; [|done].
  destruct (loop_inv_step inc s m a s1 m1 Hinv) as (Hinv1 & HF1 & HJ1); [|exact E|].
  { intros v. apply Hinc. left. }
  destruct (one_step_frame _ _ _ _ _ E) as (Hfr & Hr & Hvs).
  rewrite <- (fr_hist _ _ Hfr). apply IH; [done|lia|lia|].
  intros a' v Ha' Hvi. unfold root_at. rewrite (fr_hist _ _ Hfr). apply Hinc; [by right|done].
Qed.

Lemma process_all_app rts acc l k :
  process_all rts acc (l ++ k) = rbind (process_all rts acc l) (fun acc' => process_all rts acc' k).
Proof.
  revert acc. induction l as [|a l IH]; intros acc; cbn [process_all app rbind]; [done|].
  destruct (process_one rts acc a); cbn; [apply IH|done|done].
Qed.
