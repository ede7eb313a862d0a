(** Basic lemmas about the helpers of [Types]. *)
From Verif Require Export Types.

Lemma getN_lookup {A} (l : list A) i : getN l i = l !! N.to_nat i.
Proof.
  unfold getN. destruct (N.ltb_spec i (N.of_nat (length l))) as [H|H]; [done|].
  symmetry. apply lookup_ge_None. lia.
Qed.
Lemma lenN_app {A} (l k : list A) : lenN (l ++ k) = lenN l + lenN k.
Proof. unfold lenN. rewrite app_length. lia. Qed.
Lemma lenN_nil {A} : lenN (@nil A) = 0.
Proof. reflexivity. Qed.
Lemma lenN_cons {A} (x : A) l : lenN (x :: l) = lenN l + 1.
Proof. unfold lenN. cbn. lia. Qed.
Lemma lenN_replicate {A} n (x : A) : lenN (replicate n x) = N.of_nat n.
Proof. unfold lenN. rewrite replicate_length. done. Qed.

Lemma count_true_app l k : count_true (l ++ k) = count_true l + count_true k.
Proof. induction l as [|b l IH]; cbn; [lia|]. rewrite IH. lia. Qed.
Lemma count_true_le l : count_true l <= lenN l.
Proof. induction l as [|b l IH]; cbn; [done|]. rewrite lenN_cons. destruct b; lia. Qed.
Lemma count_true_0 l : count_true l = 0 <-> forall i, l !! i <> Some true.
Proof.
  induction l as [|b l IH]; cbn.
  - split; [|done]. intros _ i. rewrite lookup_nil. done.
  - destruct b.
    + split; [lia|]. intros H. exfalso. exact (H 0%nat eq_refl).
    + rewrite N.add_0_l, IH. split.
      * intros H [|i]; cbn; [done|]. apply H.
      * intros H i. exact (H (S i)).
Qed.

Lemma indices_from_spec i l v :
  v ∈ indices_from i l <-> i <= v /\ l !! N.to_nat (v - i) = Some true.
Proof.
  revert i. induction l as [|b l IH]; intros i; cbn.
  - rewrite elem_of_nil. rewrite lookup_nil. split; [done|intros [_ ?]; done].
  - assert (Hs : forall v, i + 1 <= v -> N.to_nat (v - i) = S (N.to_nat (v - (i + 1)))) by lia.
    destruct b.
    + rewrite elem_of_cons, IH. split.
      * intros [-> | [Hle Hv]].
        -- split; [lia|]. replace (N.to_nat (i - i)) with 0%nat by lia. done.
        -- split; [lia|]. rewrite Hs by lia. exact Hv.
      * intros [Hle Hv]. destruct (decide (v = i)) as [->|Hne]; [by left|right].
        split; [lia|]. rewrite Hs in Hv by lia. exact Hv.
    + rewrite IH. split.
      * intros [Hle Hv]. split; [lia|]. rewrite Hs by lia. exact Hv.
      * intros [Hle Hv]. destruct (decide (v = i)) as [->|Hne].
        -- replace (N.to_nat (i - i)) with 0%nat in Hv by lia. done.
        -- split; [lia|]. rewrite Hs in Hv by lia. exact Hv.
Qed.
Lemma validator_indices_spec l v :
  v ∈ validator_indices l <-> l !! N.to_nat v = Some true.
Proof.
  unfold validator_indices. rewrite indices_from_spec.
  rewrite N.sub_0_r. split; [tauto|]. split; [lia|tauto].
Qed.
Lemma indices_from_sorted i l : StronglySorted N.lt (indices_from i l).
Proof.
  revert i. induction l as [|b l IH]; intros i; cbn; [constructor|].
  destruct b; [|apply IH]. constructor; [apply IH|].
  apply Forall_forall. intros v Hv. apply indices_from_spec in Hv. lia.
Qed.
Lemma StronglySorted_lt_NoDup (l : list N) : StronglySorted N.lt l -> NoDup l.
Proof.
  induction 1 as [|x l Hs IH Hf]; constructor; [|done].
  intros Hin. rewrite Forall_forall in Hf. specialize (Hf x Hin). lia.
Qed.
Lemma validator_indices_NoDup l : NoDup (validator_indices l).
Proof. apply StronglySorted_lt_NoDup, indices_from_sorted. Qed.
Lemma indices_from_length i l : lenN (indices_from i l) = count_true l.
Proof.
  revert i. induction l as [|b l IH]; intros i; cbn; [done|].
  destruct b; [rewrite lenN_cons|]; rewrite IH; lia.
Qed.
Lemma validator_indices_length l : lenN (validator_indices l) = count_true l.
Proof. apply indices_from_length. Qed.

(** Two strictly sorted lists with the same elements are equal. *)
Lemma StronglySorted_lt_unique (l k : list N) :
  StronglySorted N.lt l -> StronglySorted N.lt k ->
  (forall x, x ∈ l <-> x ∈ k) -> l = k.
Proof.
  intros Hl. revert k. induction Hl as [|x l Hs IH Hf]; intros k Hk Hiff.
  - destruct k as [|y k]; [done|]. exfalso.
    assert (y ∈ @nil N) as Hy by (apply Hiff; left). inversion Hy.
  - destruct Hk as [|y k Hk Hg].
    + exfalso. assert (x ∈ @nil N) as Hx by (apply Hiff; left). inversion Hx.
    + rewrite Forall_forall in Hf, Hg.
      assert (x = y) as ->.
      { assert (x ∈ y :: k) as H1 by (apply Hiff; left).
        assert (y ∈ x :: l) as H2 by (apply Hiff; left).
        apply elem_of_cons in H1 as [->|H1]; [done|].
        apply elem_of_cons in H2 as [->|H2]; [done|].
        specialize (Hg _ H1). specialize (Hf _ H2). lia. }
      f_equal. apply IH; [done|]. intros z. split; intros Hz.
      * assert (z ∈ y :: k) as H by (apply Hiff; by right).
        apply elem_of_cons in H as [->|H]; [|done]. specialize (Hf _ Hz). lia.
      * assert (z ∈ y :: l) as H by (apply Hiff; by right).
        apply elem_of_cons in H as [->|H]; [|done]. specialize (Hg _ Hz). lia.
Qed.

Lemma rbind_Ok {E A B} (r : res E A) (f : A -> res E B) b :
  rbind r f = Ok b -> exists a, r = Ok a /\ f a = Ok b.
Proof. destruct r; cbn; intros H; [eauto|done|done]. Qed.
Lemma rbind_Panic {E A B} (r : res E A) (f : A -> res E B) :
  rbind r f = Panic -> r = Panic \/ exists a, r = Ok a /\ f a = Panic.
Proof. destruct r; cbn; intros H; [eauto|done|auto]. Qed.

Lemma elem_of_concat {A} (ls : list (list A)) x :
  x ∈ concat ls <-> exists l, x ∈ l /\ l ∈ ls.
Proof.
  rewrite elem_of_list_In, in_concat. setoid_rewrite elem_of_list_In. naive_solver.
Qed.
Lemma elem_of_map {A B} (f : A -> B) l y :
  y ∈ map f l <-> exists x, y = f x /\ x ∈ l.
Proof. apply elem_of_list_fmap. Qed.
