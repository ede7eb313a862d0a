(** The greedy choice of aggregates. *)
From Verif Require Export BuilderSpec NodeThms2.

Lemma indices_spec p v : v ∈ indices p <-> takes_part v p.
Proof. apply validator_indices_spec. Qed.
Lemma voters_spec p v : v ∈ voters p <-> takes_part v p.
Proof. unfold voters. rewrite elem_of_list_to_set. apply indices_spec. Qed.
Lemma covered_cons p l v : covered_by (p :: l) v <-> takes_part v p \/ covered_by l v.
Proof.
  unfold covered_by. setoid_rewrite elem_of_cons. split.
  - intros (q & [->|Hq] & H); [by left|right; eauto].
  - intros [H|(q & Hq & H)]; eauto.
Qed.
Lemma covered_app l k v : covered_by (l ++ k) v <-> covered_by l v \/ covered_by k v.
Proof. unfold covered_by. setoid_rewrite elem_of_app. naive_solver. Qed.

Lemma last_max_spec {A} (f : A -> N) l x :
  last_max f l = Some x -> x ∈ l /\ forall y, y ∈ l -> f y <= f x.
Proof.
  revert x. induction l as [|a l IH]; intros x; cbn [last_max]; [done|].
  destruct (last_max f l) as [y|] eqn:Hl.
  - destruct (IH y eq_refl) as [Hy Hmax]. destruct (N.ltb_spec (f y) (f a)); intros [= <-].
    + split; [left|]. intros z Hz. apply elem_of_cons in Hz as [->|Hz]; [lia|]. specialize (Hmax z Hz). lia.
    + split; [by right|]. intros z Hz. apply elem_of_cons in Hz as [->|Hz]; [lia|]. by apply Hmax.
  - intros [= <-]. destruct l as [|b l]; [|cbn in Hl; destruct (last_max f l); [by destruct (_ <? _)|done]].
    split; [left|]. intros z Hz. apply elem_of_list_singleton in Hz as ->. lia.
Qed.
Lemma last_max_None {A} (f : A -> N) l : last_max f l = None -> l = [].
Proof. destruct l as [|a l]; [done|]. cbn. destruct (last_max f l); [by destruct (_ <? _)|done]. Qed.

Section Greedy.
  Context (iter : nat -> list nat -> list nat) (Hiter : an_order iter) (proofs : list Proof_).

  Lemma count_new_counts cov pre p :
    (forall v, v ∈ cov <-> covered_by pre v) -> counts (count_new cov p) (adds pre p).
  Proof.
    intros Hc. unfold count_new.
    exists (List.filter (fun v => negb (bool_decide (v ∈ cov))) (indices p)).
    split; [apply NoDup_ListNoDup, List.NoDup_filter, NoDup_ListNoDup, validator_indices_NoDup|]. split; [|done].
    intros v. rewrite elem_of_list_In, filter_In, <- elem_of_list_In, indices_spec. unfold adds.
    rewrite <- Hc. rewrite negb_true_iff, bool_decide_eq_false. done.
  Qed.
  Lemma counts_unique n m (P : N -> Prop) : counts n P -> counts m P -> n = m.
  Proof.
    intros (l & H1 & H2 & <-) (k & H3 & H4 & <-). unfold lenN. f_equal. apply Permutation_length.
    apply NoDup_Permutation; [done|done|]. intros x. by rewrite H2, H4.
  Qed.
  Lemma counts_zero n (P : N -> Prop) : counts n P -> (n = 0 <-> forall v, ~ P v).
  Proof.
    intros (l & H1 & H2 & <-). split.
    - intros Hl v Hv. apply H2 in Hv. destruct l; [by inversion Hv|]. rewrite lenN_cons in Hl. lia.
    - intros H. destruct l as [|x l]; [done|]. exfalso. apply (H x), H2. left.
  Qed.

  Record loop_out (remaining : list nat) (pre sel : list Proof_) : Prop := {
    lo_from : exists is, NoDup is /\ is ⊆ remaining /\ Forall2 (fun i p => proofs !! i = Some p) is sel;
    lo_adds : forall k p, sel !! k = Some p -> exists v, adds (pre ++ take k sel) p v;
    lo_best : forall k p q n m, sel !! k = Some p -> q ∈ proofs ->
      counts n (adds (pre ++ take k sel) q) -> counts m (adds (pre ++ take k sel) p) -> n <= m;
    lo_all : forall q v, q ∈ proofs -> takes_part v q -> covered_by (pre ++ sel) v }.

  Lemma greedy_loop_spec fuel cov remaining pre :
    (length remaining <= fuel)%nat -> NoDup remaining ->
    (forall i, i ∈ remaining -> (i < length proofs)%nat) ->
    (forall i q, proofs !! i = Some q -> i ∈ remaining \/ q ∈ pre) ->
    (forall v, v ∈ cov <-> covered_by pre v) ->
    loop_out remaining pre (greedy_loop iter fuel proofs cov remaining).
  Proof.
    revert cov remaining pre. induction fuel as [|f IH]; intros cov remaining pre Hfuel Hnd Hr Hrem Hcov.
    - assert (remaining = []) as -> by (destruct remaining; [done|cbn in Hfuel; lia]). cbn. split.
      + exists []. split; [constructor|]. split; [done|constructor].
      + done.
      + done.
      + intros q v Hq Hv. rewrite app_nil_r. apply elem_of_list_lookup in Hq as [i Hi].
        destruct (Hrem _ _ Hi) as [H|H]; [by inversion H|]. exists q. done.
    - cbn [greedy_loop].
      set (count := fun i => match proofs !! i with Some p => count_new cov p | None => 0 end).
      assert (forall i q, proofs !! i = Some q -> i ∈ iter f remaining \/ q ∈ pre) as Hrem'.
      { intros i q Hi. destruct (Hrem _ _ Hi) as [H|H]; [left|by right]. pose proof (Hiter f remaining) as Hpm. by rewrite Hpm. }
      destruct (last_max count (iter f remaining)) as [i|] eqn:Hm.
      2:{ apply last_max_None in Hm. rewrite Hm in Hrem'. split; [|intros ? ? Hk; by rewrite lookup_nil in Hk|intros ? ? ? ? ? Hk; by rewrite lookup_nil in Hk|].
          - exists []. split; [constructor|]. split; [intros ? Hx; by inversion Hx|constructor].
          - intros q v Hq Hv. rewrite app_nil_r. apply elem_of_list_lookup in Hq as [i Hi].
            destruct (Hrem' _ _ Hi) as [H|H]; [by inversion H|]. exists q. done. }
      apply last_max_spec in Hm as [Hi Hmax]. pose proof (Hiter f remaining) as Hpm. rewrite Hpm in Hi.
      destruct (lookup_lt_is_Some_2 proofs i (Hr _ Hi)) as [p Hp]. rewrite Hp.
      assert (count i = count_new cov p) as Hci by (unfold count; by rewrite Hp).
      pose proof (count_new_counts cov pre p Hcov) as Hcp.
      assert (forall q n, q ∈ proofs -> counts n (adds pre q) -> n <= count i) as Hbest.
      { intros q n Hq Hn. apply elem_of_list_lookup in Hq as [j Hj].
        rewrite (counts_unique _ _ _ Hn (count_new_counts cov pre q Hcov)).
        destruct (Hrem' _ _ Hj) as [H|H].
        - specialize (Hmax j H). unfold count in Hmax at 1. by rewrite Hj in Hmax.
        - assert (count_new cov q = 0) as ->; [|lia].
          apply (counts_zero _ _ (count_new_counts cov pre q Hcov)). intros v [Hv Hnv]. apply Hnv. exists q. done. }
      cbv beta iota. rewrite <- ?Hci.
      destruct (N.eqb_spec (count i) 0) as [Hz|Hz].
      + split; [|intros ? ? Hk; by rewrite lookup_nil in Hk|intros ? ? ? ? ? Hk; by rewrite lookup_nil in Hk|].
        * exists []. split; [constructor|]. split; [intros ? Hx; by inversion Hx|constructor].
        * intros q v Hq Hv. rewrite app_nil_r.
          destruct (decide (v ∈ cov)) as [Hin|Hout]; [by apply Hcov|]. exfalso.
          specialize (Hbest q (count_new cov q) Hq (count_new_counts cov pre q Hcov)).
          assert (count_new cov q = 0) as Hq0 by lia.
          apply (counts_zero _ _ (count_new_counts cov pre q Hcov)) with (v := v) in Hq0.
          apply Hq0. split; [done|]. by rewrite <- Hcov.
      + set (rem' := List.filter (fun j => negb (j =? i)%nat) remaining).
        assert (forall j, j ∈ rem' <-> j ∈ remaining /\ j <> i) as Hrem''.
        { intros j. unfold rem'. rewrite !elem_of_list_In, filter_In, negb_true_iff, Nat.eqb_neq. done. }
        destruct (IH (cov ∪ voters p) rem' (pre ++ [p])) as [(is & I1 & I2 & I3) J2 J3 J4].
        * assert (length rem' < length remaining)%nat; [|lia].
          assert (i :: rem' ≡ₚ remaining) as Hperm.
          { apply NoDup_Permutation; [|done|].
            - constructor; [rewrite Hrem''; tauto|].
              apply NoDup_ListNoDup, List.NoDup_filter, NoDup_ListNoDup, Hnd.
            - intros j. rewrite elem_of_cons, Hrem''. destruct (decide (j = i)) as [->|]; naive_solver. }
          apply Permutation_length in Hperm. cbn in Hperm. lia.
        * apply NoDup_ListNoDup, List.NoDup_filter, NoDup_ListNoDup, Hnd.
        * intros j Hj. apply Hrem'' in Hj as [Hj _]. by apply Hr.
        * intros j q Hj. rewrite elem_of_app, elem_of_list_singleton, Hrem''.
          destruct (Hrem _ _ Hj) as [H|H]; [|tauto]. destruct (decide (j = i)) as [->|]; [|tauto].
          right. right. congruence.
        * intros v. rewrite elem_of_union, Hcov, voters_spec, covered_app, covered_cons. unfold covered_by at 3.
          split; [naive_solver|]. intros [H|[H|(q & Hq & _)]]; [tauto|tauto|]. by inversion Hq.
        * rewrite <- app_assoc in J4. cbn [app] in J4. split; [| | |done].
          -- exists (i :: is). split; [|split].
             ++ constructor; [|done]. intros Hin. apply I2, Hrem'' in Hin. tauto.
             ++ intros j Hj. apply elem_of_cons in Hj as [->|Hj]; [done|]. apply I2, Hrem'' in Hj. tauto.
             ++ by constructor.
          -- intros [|k] q; cbn [lookup list_lookup].
             ++ intros [= <-]. cbn [take]. rewrite app_nil_r. rewrite Hci in Hz.
                destruct Hcp as (l & K1 & K2 & K3). destruct l as [|v l]; [by rewrite <- K3 in Hz|].
                exists v. apply K2. left.
             ++ intros Hk. specialize (J2 k q Hk). rewrite <- app_assoc in J2. exact J2.
          -- intros [|k] x q n m; cbn [lookup list_lookup].
             ++ intros [= <-]. cbn [take]. rewrite app_nil_r. intros Hq Hn Hm.
                rewrite (counts_unique _ _ _ Hm Hcp). rewrite <- Hci. by apply Hbest with (q := q).
             ++ intros Hk. specialize (J3 k x q n m Hk). rewrite <- app_assoc in J3. exact J3.
  Qed.

  Lemma greedy_spec : loop_out (seq 0 (length proofs)) [] (greedy_proofs iter proofs).
  Proof.
    apply greedy_loop_spec.
    - by rewrite seq_length.
    - apply NoDup_seq.
    - intros i Hi. apply elem_of_seq in Hi. lia.
    - intros i q Hi. left. apply elem_of_seq. apply lookup_lt_Some in Hi. lia.
    - intros v. unfold covered_by. split; [set_solver|]. intros (p & Hp & _). by inversion Hp.
  Qed.

  Lemma greedy_from p : p ∈ greedy_proofs iter proofs -> p ∈ proofs.
  Proof.
    destruct greedy_spec as [(is & _ & _ & Hall) _ _ _]. intros Hp.
    apply elem_of_list_lookup in Hp as [k Hk]. destruct (Forall2_lookup_r _ _ _ _ _ Hall Hk) as (i & _ & Hi).
    by eapply elem_of_list_lookup_2.
  Qed.
  Lemma greedy_covered v : covered_by (greedy_proofs iter proofs) v <-> covered_by proofs v.
  Proof.
    split.
    - intros (p & Hp & Hv). exists p. split; [by apply greedy_from|done].
    - intros (p & Hp & Hv). by eapply (lo_all _ _ _ greedy_spec).
  Qed.
End Greedy.

Lemma C38_greedy_pf iter proofs :
  an_order iter ->
  let sel := greedy_proofs iter proofs in
  (exists is, NoDup is /\ Forall2 (fun i p => proofs !! i = Some p) is sel) /\
  (forall k p, sel !! k = Some p -> exists v, adds (take k sel) p v) /\
  (forall k p q n m, sel !! k = Some p -> q ∈ proofs ->
     counts n (adds (take k sel) q) -> counts m (adds (take k sel) p) -> n <= m) /\
  (forall v, covered_by sel v <-> covered_by proofs v).
Proof.
  intros Hi sel. pose proof (greedy_spec iter Hi proofs) as [(is & I1 & _ & I3) H2 H3 _].
  split; [eauto|]. split; [done|]. split; [done|]. intros v. by apply greedy_covered.
Qed.

(** Union of bitlists. *)
Lemma union_bits_lookup a b i :
  union_bits a b !! i = Some true <-> a !! i = Some true \/ b !! i = Some true.
Proof.
  revert b i. induction a as [|x a IH]; intros [|y b] i; cbn [union_bits].
  - rewrite lookup_nil. naive_solver.
  - rewrite lookup_nil. naive_solver.
  - rewrite lookup_nil. naive_solver.
  - destruct i as [|i]; cbn; [|apply IH]. destruct x, y; cbn; naive_solver.
Qed.
Lemma union_bits_length a b : length (union_bits a b) = Nat.max (length a) (length b).
Proof. revert b. induction a as [|x a IH]; intros [|y b]; cbn; [done..|]. by rewrite IH. Qed.
