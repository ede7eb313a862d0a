(** Invariants of the state transition. *)
From Verif Require Export JustProofs.

(** ** Tallies: unpacking and serialising *)
Lemma unpack_lookup_concat n (f : H256 -> list bool) roots acc r :
  (forall x, x ∈ roots -> length (f x) = n) -> NoDup roots ->
  unpack_tallies n roots (concat (map f roots)) acc !! r =
  if decide (r ∈ roots) then Some (f r) else acc !! r.
Proof.
  revert acc. induction roots as [|x roots IH]; intros acc Hlen Hnd; cbn.
  - rewrite decide_False by (apply not_elem_of_nil). done.
  - assert (length (f x) = n) as Hx by (apply Hlen; left).
    rewrite drop_app_alt, take_app_alt by done.
    apply NoDup_cons in Hnd as [Hnin Hnd].
    rewrite IH; [|intros y Hy; apply Hlen; by right|done].
    destruct (decide (r = x)) as [->|Hne].
    + rewrite decide_False by done. rewrite decide_True by left.
      by rewrite lookup_insert.
    + destruct (decide (r ∈ roots)).
      * rewrite decide_True by (by right). done.
      * rewrite decide_False by (rewrite elem_of_cons; tauto).
        by rewrite lookup_insert_ne.
Qed.

Lemma chunk_concat {A} n (k : nat) (l : list A) :
  length l = (k * n)%nat ->
  l = concat (map (fun i => take n (drop (i * n) l)) (seq 0 k)).
Proof.
  revert l. induction k as [|k IH]; intros l Hl; cbn.
  - destruct l; [done|cbn in Hl; lia].
  - rewrite drop_0. rewrite <- (take_drop n l) at 1. f_equal.
    rewrite (IH (drop n l)) at 1 by (rewrite drop_length; lia).
    f_equal. rewrite <- fmap_S_seq, <- list_fmap_compose.
    apply list_fmap_ext. intros i x Hi. unfold compose. rewrite drop_drop.
    do 2 f_equal.
Qed.

(** The tally of root number [i]. *)
Definition segment (n : nat) (vals : list bool) (i : nat) : list bool :=
  take n (drop (i * n) vals).

Lemma unpack_lookup n roots vals acc r :
  NoDup roots -> length vals = (length roots * n)%nat ->
  (forall i, roots !! i = Some r ->
     unpack_tallies n roots vals acc !! r = Some (segment n vals i)) /\
  (r ∉ roots -> unpack_tallies n roots vals acc !! r = acc !! r).
Proof.
  revert vals acc. induction roots as [|x roots IH]; intros vals acc Hnd Hlen; cbn.
  - split; [intros i; rewrite lookup_nil; done|done].
  - apply NoDup_cons in Hnd as [Hnin Hnd]. cbn in Hlen.
    destruct (IH (drop n vals) (<[x:=take n vals]> acc)) as [IH1 IH2];
      [done|rewrite drop_length; lia|]. split.
    + intros [|i]; cbn.
      * intros [= ->]. rewrite IH2 by done. rewrite lookup_insert.
        unfold segment. done.
      * intros Hi. rewrite (IH1 i Hi). unfold segment.
        rewrite drop_drop. done.
    + intros Hni. apply not_elem_of_cons in Hni as [Hne Hni].
      rewrite IH2 by done. by rewrite lookup_insert_ne.
Qed.

Definition tallies_of (s : State) : Tallies :=
  unpack_tallies (length (s_validators s)) (s_jroots s) (s_jvals s) ∅.

(** Well-formed vote bookkeeping. *)
Record canonical (s : State) : Prop := {
  can_sorted : StronglySorted N.lt (s_jroots s);
  can_len : length (s_jvals s) = (length (s_jroots s) * length (s_validators s))%nat }.

Lemma merge_sort_strict (l : list N) :
  NoDup l -> StronglySorted N.lt (merge_sort N.le l).
Proof.
  intros Hnd.
  assert (StronglySorted N.le (merge_sort N.le l)) as Hs.
  { apply (StronglySorted_merge_sort N.le). }
  assert (NoDup (merge_sort N.le l)) as Hnd'.
  { rewrite merge_sort_Permutation. done. }
  revert Hs Hnd'. generalize (merge_sort N.le l). intros k Hs Hk.
  induction Hs as [|x k Hs IH Hf]; constructor.
  - apply IH. by apply NoDup_cons in Hk as [_ ?].
  - apply NoDup_cons in Hk as [Hnin _]. rewrite Forall_forall in Hf |- *.
    intros y Hy. specialize (Hf y Hy). assert (x <> y) by (intros ->; done). lia.
Qed.

Definition sorted_keys (m : Tallies) : list N := merge_sort N.le (map fst (map_to_list m)).
Lemma sorted_keys_sorted m : StronglySorted N.lt (sorted_keys m).
Proof. apply merge_sort_strict. apply NoDup_fst_map_to_list. Qed.
Lemma sorted_keys_elem m r : r ∈ sorted_keys m <-> is_Some (m !! r).
Proof.
  unfold sorted_keys. rewrite merge_sort_Permutation. split.
  - intros Hin. apply elem_of_list_fmap in Hin as [[k v] [-> Hin]].
    apply elem_of_map_to_list in Hin. eauto.
  - intros [v Hv]. apply elem_of_list_fmap. exists (r, v). split; [done|].
    by apply elem_of_map_to_list.
Qed.

Lemma serialize_spec s m s' :
  (forall r v, m !! r = Some v -> length v = length (s_validators s)) ->
  serialize_justifications s m = Ok s' ->
  s' = with_votes s (s_jroots s') (s_jvals s') /\ canonical s' /\ tallies_of s' = m
  /\ s_jroots s' = sorted_keys m.
Proof.
  intros Hlen. unfold serialize_justifications.
  destruct (_ <? _); [done|]. destruct (_ <? _); [done|].
  fold (sorted_keys m).
  set (f := fun r => match m !! r with Some v => v | None => [] end).
  intros [= <-].
  assert (Hf : forall x, x ∈ sorted_keys m -> length (f x) = length (s_validators s)).
  { intros x Hx. apply sorted_keys_elem in Hx as [v Hv]. unfold f.
    rewrite Hv. by eapply Hlen. }
  split; [done|]. split; [|split; [|done]].
  - split; [apply sorted_keys_sorted|]. cbn.
    revert Hf. generalize (sorted_keys m) as l. intros l Hf.
    induction l as [|x l IH]; cbn; [done|].
    rewrite app_length, (Hf x) by left. rewrite IH; [lia|].
    intros y Hy. apply Hf. by right.
  - unfold tallies_of. cbn. apply map_eq. intros r.
    rewrite unpack_lookup_concat; [|done|].
    + destruct (decide (r ∈ sorted_keys m)) as [Hin|Hnin].
      * apply sorted_keys_elem in Hin as [v Hv]. unfold f. by rewrite Hv.
      * rewrite lookup_empty. symmetry. apply eq_None_not_Some.
        by rewrite <- sorted_keys_elem.
    + apply StronglySorted_lt_NoDup, sorted_keys_sorted.
Qed.

(** Canonical bookkeeping is determined by the tallies. *)
Lemma canonical_tallies_keys s r :
  canonical s -> is_Some (tallies_of s !! r) <-> r ∈ s_jroots s.
Proof.
  intros [Hs Hl].
  destruct (unpack_lookup (length (s_validators s)) (s_jroots s) (s_jvals s) ∅ r) as [H1 H2];
    [by apply StronglySorted_lt_NoDup|done|].
  split.
  - intros Hsome. destruct (decide (r ∈ s_jroots s)); [done|].
    unfold tallies_of in Hsome. rewrite H2 in Hsome by done.
    rewrite lookup_empty in Hsome. by destruct Hsome.
  - intros Hin. apply elem_of_list_lookup in Hin as [i Hi].
    unfold tallies_of. rewrite (H1 i Hi). eauto.
Qed.

Lemma segment_lookup n vals i v :
  (v < n)%nat -> segment n vals i !! v = vals !! (i * n + v)%nat.
Proof.
  intros Hv. unfold segment. rewrite lookup_take by done. apply lookup_drop.
Qed.

Lemma canonical_tallied s r v :
  canonical s ->
  tallied s r v <->
  exists vs, tallies_of s !! r = Some vs /\ vs !! N.to_nat v = Some true.
Proof.
  intros [Hs Hl].
  destruct (unpack_lookup (length (s_validators s)) (s_jroots s) (s_jvals s) ∅ r) as [H1 H2];
    [by apply StronglySorted_lt_NoDup|done|].
  unfold tallied, lenN. split.
  - intros (Hv & i & Hi & Hb). exists (segment (length (s_validators s)) (s_jvals s) i).
    split; [by apply H1|]. rewrite segment_lookup by lia. done.
  - intros (vs & Hvs & Hb).
    assert (r ∈ s_jroots s) as Hin.
    { apply canonical_tallies_keys; [done|eauto]. }
    apply elem_of_list_lookup in Hin as [i Hi].
    unfold tallies_of in Hvs. rewrite (H1 i Hi) in Hvs. injection Hvs as <-.
    assert (N.to_nat v < length (s_validators s))%nat as Hv.
    { apply lookup_lt_Some in Hb. unfold segment in Hb. rewrite take_length in Hb. lia. }
    split; [lia|]. exists i. split; [done|].
    rewrite segment_lookup in Hb by lia. done.
Qed.

Lemma canonical_ext s s' :
  canonical s -> canonical s' ->
  length (s_validators s) = length (s_validators s') ->
  tallies_of s = tallies_of s' ->
  s_jroots s = s_jroots s' /\ s_jvals s = s_jvals s'.
Proof.
  intros Hc Hc' Hn Ht.
  assert (s_jroots s = s_jroots s') as Hr.
  { apply StronglySorted_lt_unique; [by apply can_sorted|by apply can_sorted|].
    intros x. rewrite <- (canonical_tallies_keys s), <- (canonical_tallies_keys s') by done.
    by rewrite Ht. }
  split; [done|]. destruct Hc as [Hs Hl], Hc' as [Hs' Hl'].
  rewrite (chunk_concat _ _ _ Hl), (chunk_concat _ _ _ Hl'). f_equal.
  rewrite <- Hr, <- Hn. apply list_fmap_ext. intros j i Hi.
  apply lookup_seq in Hi as [-> Hi]. cbn.
  destruct (lookup_lt_is_Some_2 (s_jroots s) j) as [r Hr']; [lia|].
  destruct (unpack_lookup (length (s_validators s)) (s_jroots s) (s_jvals s) ∅ r) as [H1 _];
    [by apply StronglySorted_lt_NoDup|done|].
  destruct (unpack_lookup (length (s_validators s)) (s_jroots s) (s_jvals s') ∅ r) as [H2 _];
    [by apply StronglySorted_lt_NoDup|congruence|].
  specialize (H1 j Hr'). specialize (H2 j Hr'). unfold tallies_of in Ht.
  rewrite <- Hn, <- Hr in Ht. rewrite Ht, H2 in H1. unfold segment in H1. congruence.
Qed.

Lemma serialize_unpack s s' :
  canonical s ->
  serialize_justifications s (tallies_of s) = Ok s' -> s' = s.
Proof.
  intros Hc Hser.
  assert (forall r v, tallies_of s !! r = Some v -> length v = length (s_validators s)) as Hlen.
  { intros r v Hv. destruct Hc as [Hs Hl].
    destruct (unpack_lookup (length (s_validators s)) (s_jroots s) (s_jvals s) ∅ r) as [H1 H2];
      [by apply StronglySorted_lt_NoDup|done|].
    assert (r ∈ s_jroots s) as Hin.
    { apply canonical_tallies_keys; [done|eauto]. }
    apply elem_of_list_lookup in Hin as [i Hi]. unfold tallies_of in Hv.
    rewrite (H1 i Hi) in Hv. injection Hv as <-. unfold segment.
    rewrite take_length, drop_length. apply lookup_lt_Some in Hi. nia. }
  destruct (serialize_spec _ _ _ Hlen Hser) as (Heq & Hc' & Ht & _).
  destruct (canonical_ext s s') as [Hr Hv]; [done|done| |done|].
  - rewrite Heq. done.
  - rewrite Heq, <- Hr, <- Hv. destruct s; done.
Qed.

(** ** root_to_slot *)
Lemma root_slots_from_spec slot l m r x :
  root_slots_from slot l m !! r = Some x ->
  m !! r = Some x \/ (slot <= x /\ l !! N.to_nat (x - slot) = Some r).
Proof.
  revert slot m. induction l as [|y l IH]; intros slot m; cbn; [by left|].
  intros H. destruct (IH _ _ H) as [H1|[H1 H2]].
  - destruct (decide (r = y)) as [->|Hne].
    + rewrite lookup_insert in H1. destruct (m !! y) as [z|] eqn:Ez.
      * injection H1 as <-. destruct (N.max_spec z slot) as [[? ->]|[? ->]].
        -- right. split; [lia|]. by replace (N.to_nat (slot - slot)) with 0%nat by lia.
        -- by left.
      * injection H1 as <-. right. split; [lia|].
        by replace (N.to_nat (slot - slot)) with 0%nat by lia.
    + rewrite lookup_insert_ne in H1 by done. by left.
  - right. split; [lia|].
    replace (N.to_nat (x - slot)) with (S (N.to_nat (x - (slot + 1)))) by lia. done.
Qed.
Lemma root_slots_from_ge slot l m r :
  (forall y, m !! r = Some y -> exists x, root_slots_from slot l m !! r = Some x /\ y <= x) /\
  (forall y, slot <= y -> l !! N.to_nat (y - slot) = Some r ->
      exists x, root_slots_from slot l m !! r = Some x /\ y <= x).
Proof.
  revert slot m. induction l as [|z l IH]; intros slot m; cbn.
  - split; [intros y Hy; exists y; split; [done|lia]|]. intros y _. rewrite lookup_nil. done.
  - match goal with |- context [root_slots_from _ l ?m1] =>
      destruct (IH (slot + 1) m1) as [IH1 IH2] end.
    split.
    + intros y Hy. destruct (decide (r = z)) as [->|Hne].
      * destruct (IH1 (N.max y slot)) as (x & Hx & Hle).
        { rewrite lookup_insert, Hy. done. }
        exists x. split; [done|lia].
      * apply IH1. by rewrite lookup_insert_ne.
    + intros y Hy Hl. destruct (decide (y = slot)) as [->|Hne].
      * replace (N.to_nat (slot - slot)) with 0%nat in Hl by lia. cbn in Hl.
        injection Hl as ->.
        destruct (m !! r) as [u|] eqn:Eu.
        -- destruct (IH1 (N.max u slot)) as (x & Hx & Hle).
           { by rewrite lookup_insert. }
           exists x. split; [done|lia].
        -- apply IH1. by rewrite lookup_insert.
      * apply IH2; [lia|].
        replace (N.to_nat (y - slot)) with (S (N.to_nat (y - (slot + 1)))) in Hl by lia.
        done.
Qed.

(** The prune decision keeps exactly the roots that occur above the boundary. *)
Definition keep_root (rts : gmap H256 N) (fin : N) (r : H256) : bool :=
  match rts !! r with Some slot => fin <? slot | None => false end.
Lemma keep_root_spec hist F fin r :
  F <= fin ->
  keep_root (root_to_slot hist F) fin r = true <->
  exists t, fin < t /\ hist !! N.to_nat t = Some r.
Proof.
  intros Hle. unfold keep_root, root_to_slot.
  destruct (N.ltb_spec (F + 1) (lenN hist)) as [Hlt|Hge].
  - split.
    + destruct (root_slots_from _ _ _ !! r) as [x|] eqn:Ex; [|done].
      intros Hx. apply N.ltb_lt in Hx. exists x. split; [done|].
      apply root_slots_from_spec in Ex as [Ex|[H1 H2]]; [by rewrite lookup_empty in Ex|].
      rewrite lookup_drop in H2. rewrite <- H2. f_equal. lia.
    + intros (t & Ht & Hl).
      destruct (root_slots_from_ge (F + 1) (drop (N.to_nat (F + 1)) hist) ∅ r) as [_ H].
      destruct (H t) as (x & Hx & Hxt); [lia| |].
      { rewrite lookup_drop. rewrite <- Hl. f_equal. lia. }
      rewrite Hx. apply N.ltb_lt. lia.
  - rewrite lookup_empty. split; [done|]. intros (t & Ht & Hl).
    apply lookup_lt_Some in Hl. unfold lenN in Hge. lia.
Qed.
