(** Proofs about the pools. *)
From Verif Require Export PoolSpec Lib.

(** ** bits_is_subset *)
Lemma byte_of_bit l i : N.testbit (byte_of l) i = default false (l !! N.to_nat i).
Proof.
  revert i. induction l as [|b l IH]; intros i; cbn [byte_of]; [by rewrite N.bits_0|].
  destruct (decide (i = 0)) as [->|Hi].
  - destruct b; [rewrite N.add_comm, N.testbit_odd_0|rewrite N.add_0_l, N.testbit_even_0]; done.
  - replace i with (N.succ (i - 1)) by lia.
    destruct b; [rewrite N.add_comm, N.testbit_odd_succ by lia|rewrite N.add_0_l, N.testbit_even_succ by lia];
      rewrite IH; replace (N.to_nat (N.succ (i - 1))) with (S (N.to_nat (i - 1))) by lia; done.
Qed.
Lemma land_lnot_8 x y :
  x < 256 -> N.land x (N.lnot y 8) = 0 <-> forall i, N.testbit x i = true -> N.testbit y i = true.
Proof.
  intros Hx. split.
  - intros H i Hi. assert (N.testbit (N.land x (N.lnot y 8)) i = false) as Hb by (by rewrite H, N.bits_0).
    rewrite N.land_spec, Hi in Hb. cbn in Hb.
    destruct (N.ltb_spec i 8) as [Hl|Hl].
    + rewrite N.lnot_spec_low in Hb by done. by destruct (N.testbit y i).
    + exfalso. rewrite <- (N.mod_small x (2 ^ 8)) in Hi by done. by rewrite N.mod_pow2_bits_high in Hi.
  - intros H. apply N.bits_inj. intros i. rewrite N.land_spec, N.bits_0.
    destruct (N.testbit x i) eqn:Ex; [|done]. cbn.
    destruct (N.ltb_spec i 8) as [Hl|Hl].
    + rewrite N.lnot_spec_low by done. by rewrite H.
    + exfalso. rewrite <- (N.mod_small x (2 ^ 8)) in Ex by done. by rewrite N.mod_pow2_bits_high in Ex.
Qed.
Lemma byte_of_lt l : (length l <= 8)%nat -> byte_of l < 256.
Proof.
  intros H. assert (forall l, byte_of l < 2 ^ lenN l) as Hb.
  { clear. induction l as [|b l IH]; [done|]. cbn [byte_of]. rewrite lenN_cons, N.add_1_r, N.pow_succ_r'.
    destruct b; lia. }
  specialize (Hb l). assert (2 ^ lenN l <= 2 ^ 8) by (apply N.pow_le_mono_r; [done|unfold lenN; lia]).
  change (2 ^ 8) with 256 in *. lia.
Qed.
Lemma as_bytes_nth fuel l k i :
  (length l <= fuel)%nat -> (i < 8)%nat ->
  N.testbit (default 0 (chunks8 fuel l !! k)) (N.of_nat i) = default false (l !! (8 * k + i)%nat).
Proof.
  revert l k. induction fuel as [|f IH]; intros l k Hf Hi.
  - destruct l; [|cbn in Hf; lia]. cbn [chunks8]. by rewrite !lookup_nil, N.bits_0.
  - destruct l as [|b l0] eqn:E; [cbn [chunks8]; by rewrite !lookup_nil, N.bits_0|].
    rewrite <- E in *. replace (chunks8 (S f) l) with (byte_of (take 8 l) :: chunks8 f (drop 8 l)) by (by rewrite E).
    destruct k as [|k].
    + cbn [lookup list_lookup]. change (default 0 (Some (byte_of (take 8 l)))) with (byte_of (take 8 l)).
      rewrite byte_of_bit, Nat2N.id. cbn [Nat.mul Nat.add].
      rewrite lookup_take by done. done.
    + cbn [lookup list_lookup]. change (list_lookup k (chunks8 f (drop 8 l))) with (chunks8 f (drop 8 l) !! k).
      rewrite IH; [|rewrite drop_length; rewrite E in *; cbn [length] in *; lia|done].
      rewrite lookup_drop. f_equal. f_equal. lia.
Qed.
Lemma chunks8_lt fuel l : Forall (fun x => x < 256) (chunks8 fuel l).
Proof.
  revert l. induction fuel as [|f IH]; intros l; [constructor|]. destruct l as [|b l]; [constructor|].
  constructor; [|apply IH]. apply byte_of_lt. rewrite take_length. lia.
Qed.
Lemma bytes_subset_spec a b :
  Forall (fun x => x < 256) a ->
  bytes_subset a b = true <->
  forall k i, N.testbit (default 0 (a !! k)) i = true -> N.testbit (default 0 (b !! k)) i = true.
Proof.
  revert b. induction a as [|x a IH]; intros b Ha; cbn [bytes_subset].
  - split; [|done]. intros _ k i. rewrite lookup_nil. change (default 0 None) with 0. by rewrite N.bits_0.
  - apply Forall_cons in Ha as [Hx Ha].
    assert (bytes_subset (x :: a) b = true <->
      (forall i, N.testbit x i = true -> N.testbit (default 0 (head b)) i = true) /\ bytes_subset a (tail b) = true) as Hstep.
    { cbn [bytes_subset]. destruct (N.eqb_spec x 0) as [->|Hz].
      - split; [|tauto]. intros H. split; [|done]. intros i. by rewrite N.bits_0.
      - destruct (N.eqb_spec (N.land x (N.lnot (default 0 (head b)) 8)) 0) as [H0|H0]; cbn [negb].
        + rewrite land_lnot_8 in H0 by done. tauto.
        + split; [done|]. intros [H _]. destruct H0. by apply land_lnot_8. }
    cbn [bytes_subset] in Hstep. rewrite Hstep. rewrite IH by done. split.
    + intros [H1 H2] [|k] i.
      * intros Hi. specialize (H1 i Hi). by destruct b.
      * intros Hi. specialize (H2 k i Hi). by destruct b; [rewrite lookup_nil in *|].
    + intros H. split.
      * intros i Hi. specialize (H 0%nat i Hi). by destruct b.
      * intros k i Hi. specialize (H (S k) i Hi). by destruct b; [rewrite lookup_nil in *|].
Qed.
Lemma subset_spec a b : bits_is_subset a b = true <-> covered a b.
Proof.
  unfold bits_is_subset, as_bytes. rewrite bytes_subset_spec by apply chunks8_lt.
  assert (forall l k i, N.testbit (default 0 (chunks8 (length l) l !! k)) i = true ->
    (N.to_nat i < 8)%nat) as Hlt.
  { intros l k i Hi. destruct (N.ltb_spec i 8) as [|Hl]; [lia|]. exfalso.
    assert (default 0 (chunks8 (length l) l !! k) < 256) as Hx.
    { destruct (chunks8 (length l) l !! k) eqn:E; [|done].
      pose proof (chunks8_lt (length l) l) as Hf. rewrite Forall_lookup in Hf. exact (Hf _ _ E). }
    rewrite <- (N.mod_small (default 0 _) (2 ^ 8)) in Hi by exact Hx. by rewrite N.mod_pow2_bits_high in Hi. }
  split.
  - intros H j Hj. specialize (H (j / 8)%nat (N.of_nat (j mod 8))).
    rewrite !as_bytes_nth in H by (try apply Nat.mod_upper_bound; lia).
    assert (8 * (j / 8) + j mod 8 = j)%nat as Hdm by (pose proof (Nat.div_mod j 8); lia).
    rewrite Hdm, Hj in H. specialize (H eq_refl). by destruct (b !! j) as [[]|].
  - intros H k i Hi. pose proof (Hlt _ _ _ Hi) as Hi8.
    rewrite <- (N2Nat.id i) in Hi |- *. rewrite as_bytes_nth in Hi |- * by lia.
    destruct (a !! (8 * k + N.to_nat i)%nat) as [[]|] eqn:E; [|done|done]. by rewrite (H _ E).
Qed.
Lemma subset_spec_false a b : bits_is_subset a b = false <-> ~ covered a b.
Proof. rewrite <- subset_spec. by destruct (bits_is_subset a b). Qed.
Lemma covered_refl a : covered a a.
Proof. by intros i. Qed.
Lemma covered_trans a b c : covered a b -> covered b c -> covered a c.
Proof. intros H1 H2 i Hi. auto. Qed.

Lemma lfilter_elem {A} (f : A -> bool) l x : x ∈ List.filter f l <-> x ∈ l /\ f x = true.
Proof. rewrite !elem_of_list_In. apply filter_In. Qed.
Lemma lfilter_sublist {A} (f : A -> bool) l : sublist (List.filter f l) l.
Proof. induction l as [|x l IH]; cbn; [constructor|]. destruct (f x); constructor; done. Qed.
Lemma lfilter_nodup {A} (f : A -> bool) l : NoDup l -> NoDup (List.filter f l).
Proof. rewrite !NoDup_ListNoDup. apply List.NoDup_filter. Qed.

(** ** Sizes *)
Section BufProofs.
  Context {E : Type} (esize : E -> N).
  Notation size_sum := (size_sum esize).
  Notation evict := (evict esize).

  Lemma size_sum_empty : size_sum ∅ = 0.
  Proof. apply map_fold_empty. Qed.
  Lemma size_sum_insert m r e : m !! r = None -> size_sum (<[r:=e]> m) = esize e + size_sum m.
  Proof.
    intros H. unfold Pools.size_sum. rewrite map_fold_insert_L; [done| |done].
    intros. lia.
  Qed.
  Lemma size_sum_delete m r e : m !! r = Some e -> size_sum m = esize e + size_sum (delete r m).
  Proof.
    intros H. rewrite <- (size_sum_insert _ r) by apply lookup_delete. by rewrite insert_delete.
  Qed.
  Lemma size_sum_update m r e e' :
    m !! r = Some e -> size_sum (<[r:=e']> m) + esize e = size_sum m + esize e'.
  Proof.
    intros H. rewrite (size_sum_delete m r e H). rewrite <- (insert_delete_insert m r e').
    rewrite size_sum_insert by apply lookup_delete. lia.
  Qed.
  Lemma size_sum_concat {A} (f : E -> list A) m :
    (forall e, esize e = lenN (f e)) ->
    size_sum m = lenN (concat (map (fun re => map (pair re.1) (f re.2)) (map_to_list m))).
  Proof.
    intros Hf. induction m as [|r e m Hm IH] using map_ind.
    - by rewrite size_sum_empty, map_to_list_empty.
    - rewrite size_sum_insert, IH by done. unfold lenN.
      assert (forall l l' : list (H256 * E), l ≡ₚ l' ->
        length (concat (map (fun re => map (pair re.1) (f re.2)) l)) =
        length (concat (map (fun re => map (pair re.1) (f re.2)) l'))) as Hp.
      { induction 1; cbn; rewrite ?app_length; lia. }
      rewrite (Hp _ _ (map_to_list_insert m r e Hm)). cbn. rewrite app_length, map_length, Hf.
      unfold lenN. lia.
  Qed.

  Record buf_ok (b : Buf E) : Prop := {
    bo_nodup : NoDup (bf_order b);
    bo_dom : forall r, r ∈ bf_order b <-> is_Some (bf_data b !! r);
    bo_total : bf_total b = size_sum (bf_data b);
    bo_cap : bf_total b <= bf_cap b;
  }.

  Lemma without_nil (m : gmap H256 E) : without [] m = m.
  Proof.
    apply map_eq. intros r. unfold without. destruct (m !! r) as [e|] eqn:Em.
    - apply map_filter_lookup_Some. split; [done|]. cbn. apply not_elem_of_nil.
    - apply map_filter_lookup_None. by left.
  Qed.
  Lemma without_lookup l (m : gmap H256 E) r :
    without l m !! r = if decide (r ∈ l) then None else m !! r.
  Proof.
    unfold without. destruct (decide (r ∈ l)).
    - apply map_filter_lookup_None. right. intros e' _ H. cbn in H. done.
    - destruct (m !! r) as [e|] eqn:Em.
      + apply map_filter_lookup_Some. done.
      + apply map_filter_lookup_None. by left.
  Qed.
  Lemma without_cons r l (m : gmap H256 E) : without (r :: l) m = without l (delete r m).
  Proof.
    apply map_eq. intros r'. rewrite !without_lookup.
    destruct (decide (r' ∈ l)) as [Hl|Hl]; destruct (decide (r' ∈ r :: l)) as [Hc|Hc]; try done.
    - destruct Hc. by right.
    - apply elem_of_cons in Hc as [->|Hc]; [by rewrite lookup_delete|done].
    - rewrite lookup_delete_ne; [done|]. intros ->. apply Hc. left.
  Qed.

  (** Eviction drops the shortest prefix of the queue that brings the pool under
      its capacity. *)
  Lemma evict_spec data order cap :
    NoDup order -> (forall r, r ∈ order <-> is_Some (data !! r)) ->
    exists k b, evict data order cap (size_sum data) = Ok b /\
      bf_order b = drop k order /\ bf_data b = without (take k order) data /\
      bf_cap b = cap /\ buf_ok b /\ (k <= length order)%nat /\
      (forall j, (j < k)%nat -> cap < size_sum (without (take j order) data)).
  Proof.
    revert data. induction order as [|r order IH]; intros data Hnd Hdom; cbn [Pools.evict].
    - assert (data = ∅) as ->.
      { apply map_empty. intros r. destruct (data !! r) eqn:E1; [|done].
        assert (r ∈ []) as Hin by (apply Hdom; eauto). by apply elem_of_nil in Hin. }
      rewrite size_sum_empty. destruct (N.ltb_spec cap 0); [lia|].
      exists 0%nat. eexists. split; [done|]. cbn. rewrite without_nil.
      split; [done|]. split; [done|]. split; [done|].
      split; [split; cbn; [constructor|done|by rewrite size_sum_empty|lia]|]. split; [lia|intros; lia].
    - destruct (N.ltb_spec cap (size_sum data)) as [Hgt|Hle].
      + apply NoDup_cons in Hnd as [Hr Hnd].
        destruct (proj1 (Hdom r)) as [e He]; [left|]. rewrite He.
        pose proof (size_sum_delete _ _ _ He) as Hs. rewrite Hs.
        destruct (N.ltb_spec (esize e + size_sum (delete r data)) (esize e)); [lia|].
        replace (esize e + size_sum (delete r data) - esize e) with (size_sum (delete r data)) by lia.
        destruct (IH (delete r data) Hnd) as (k & b & H1 & H2 & H3 & H4 & H5 & H6 & H7).
        { intros r'. destruct (decide (r' = r)) as [->|Hne].
          - rewrite lookup_delete. split; [done|]. by intros [? ?].
          - rewrite lookup_delete_ne by done. rewrite <- Hdom, elem_of_cons. tauto. }
        exists (S k), b. split; [done|]. cbn [drop take]. rewrite without_cons.
        repeat (split; [done|]). cbn [length]. split; [lia|].
        intros [|j] Hj; cbn [take].
        * rewrite without_nil. lia.
        * rewrite without_cons. apply H7. lia.
      + exists 0%nat. eexists. split; [done|]. cbn [take drop]. rewrite without_nil. cbn.
        split; [done|]. split; [done|]. split; [done|].
        split; [by split|]. split; [lia|intros; lia].
  Qed.

  Lemma size_sum_filter (P : H256 * E -> Prop) `{forall x, Decision (P x)} m :
    size_sum m = size_sum (filter P m) + size_sum (filter (fun x => ~ P x) m).
  Proof.
    induction m as [|r e m Hm IH] using map_ind.
    - by rewrite !map_filter_empty, size_sum_empty.
    - rewrite size_sum_insert by done. destruct (decide (P (r, e))) as [HP|HP].
      + rewrite (map_filter_insert_True P) by done.
        rewrite (map_filter_insert_False (fun x => ~ P x)) by tauto.
        rewrite size_sum_insert.
        * rewrite (delete_notin m) by done. lia.
        * apply map_filter_lookup_None. by left.
      + rewrite (map_filter_insert_False P) by done.
        rewrite (map_filter_insert_True (fun x => ~ P x)) by done.
        rewrite size_sum_insert.
        * rewrite (delete_notin m) by done. lia.
        * apply map_filter_lookup_None. by left.
  Qed.

  Lemma prune_spec keep b :
    buf_ok b ->
    exists b' n, buf_prune esize keep b = Ok (b', n) /\ buf_ok b' /\
      bf_cap b' = bf_cap b /\
      (forall r e, bf_data b' !! r = Some e <-> bf_data b !! r = Some e /\ keep e = true) /\
      sublist (bf_order b') (bf_order b).
  Proof.
    intros [H1 H2 H3 H4]. unfold buf_prune.
    pose proof (size_sum_filter (fun x => Is_true (keep x.2)) (bf_data b)) as Hs.
    set (kept := filter (fun x => Is_true (keep x.2)) (bf_data b)) in *.
    change (fun x : N * E => ~ (fun x0 : N * E => Is_true (keep x0.2)) x) with (fun x : N * E => ~ Is_true (keep x.2)) in Hs.
    set (removed := filter (fun x => ~ Is_true (keep x.2)) (bf_data b)) in *.
    destruct (N.ltb_spec (bf_total b) (size_sum removed)); [lia|].
    eexists _, _. split; [done|].
    assert (forall r e, kept !! r = Some e <-> bf_data b !! r = Some e /\ keep e = true) as Hk.
    { intros r e. unfold kept. rewrite map_filter_lookup_Some. cbn. by rewrite Is_true_true. }
    assert (forall r e, removed !! r = Some e <-> bf_data b !! r = Some e /\ keep e = false) as Hrm.
    { intros r e. unfold removed. rewrite map_filter_lookup_Some. cbn. by rewrite Is_true_false. }
    split; [|split; [done|split; [done|]]].
    - split; cbn.
      + destruct (0 <? _); [|done]. by apply lfilter_nodup.
      + intros r. destruct (N.ltb_spec 0 (N.of_nat (size removed))) as [Hn|Hn].
        * rewrite lfilter_elem, bool_decide_eq_true, H2. split; [tauto|]. intros Hx. split; [|done].
          destruct Hx as [e He]. apply Hk in He as [He _]. eauto.
        * assert (removed = ∅) as Hem by (apply map_size_empty_inv; lia).
          rewrite H2. split.
          -- intros [e He]. exists e. apply Hk. split; [done|].
             destruct (keep e) eqn:Ek; [done|]. exfalso.
             assert (removed !! r = Some e) as Hx by (by apply Hrm). by rewrite Hem, lookup_empty in Hx.
          -- intros [e He]. apply Hk in He as [He _]. eauto.
      + lia.
      + lia.
    - cbn. destruct (0 <? _); [|done]. apply lfilter_sublist.
  Qed.
End BufProofs.

(** ** Payload pool *)
Lemma swap_remove_mid {A} (pre suf : list A) x :
  exists suf', swap_remove (length pre) (pre ++ x :: suf) = Ok (pre ++ suf') /\ suf' ≡ₚ suf.
Proof.
  unfold swap_remove. destruct (last (pre ++ x :: suf)) as [z|] eqn:El.
  2:{ apply last_None in El. by destruct pre. }
  rewrite app_length. cbn [length]. destruct (Nat.ltb_spec (length pre) (length pre + S (length suf))); [|lia].
  rewrite insert_app_r_alt by lia. rewrite Nat.sub_diag. cbn.
  destruct suf as [|y suf0] eqn:Es.
  - exists []. split; [|done]. rewrite take_app_alt by (cbn; lia). by rewrite app_nil_r.
  - rewrite <- Es in *. assert (suf <> []) as Hne by (by rewrite Es).
    destruct (exists_last Hne) as (s0 & w & Hs). rewrite Hs in *.
    replace (pre ++ x :: s0 ++ [w]) with ((pre ++ x :: s0) ++ [w]) in El by (by rewrite <- app_assoc).
    rewrite last_snoc in El. injection El as <-.
    exists (w :: s0). rewrite app_length. cbn [length]. split.
    + f_equal. replace (pre ++ w :: s0 ++ [w]) with ((pre ++ w :: s0) ++ [w]) by (by rewrite <- app_assoc).
      apply take_app_alt. rewrite app_length. cbn. lia.
    + rewrite Permutation_app_comm. done.
Qed.

Lemma scan_remove bits pre suf is total :
  scan_proofs bits (length pre) suf = Some is ->
  lenN (pre ++ suf) <= total ->
  exists suf' t', remove_rev is (pre ++ suf) total = Ok (pre ++ suf', t') /\
    suf' ≡ₚ List.filter (fun q => negb (bits_is_subset (pr_bits q) bits)) suf /\
    t' + lenN suf = total + lenN suf' /\
    Forall (fun q => bits_is_subset bits (pr_bits q) = false) suf.
Proof.
  revert pre is total. induction suf as [|q suf IH]; intros pre is total; cbn [scan_proofs].
  - intros [= <-] _. exists [], total. cbn. by rewrite app_nil_r.
  - destruct (bits_is_subset bits (pr_bits q)) eqn:Eq; [done|].
    destruct (scan_proofs bits (S (length pre)) suf) as [is'|] eqn:Es; [|done]. intros [= <-] Ht.
    replace (S (length pre)) with (length (pre ++ [q])) in Es by (rewrite app_length; cbn; lia).
    destruct (IH (pre ++ [q]) is' total Es) as (suf' & t' & Hr & Hp & Hl & Hf).
    { by rewrite <- app_assoc. }
    rewrite <- !app_assoc in Hr. cbn [app] in Hr. cbn [List.filter].
    destruct (bits_is_subset (pr_bits q) bits) eqn:Eq2; cbn [negb].
    + cbn [remove_rev]. rewrite Hr. cbn [rbind fst snd].
      destruct (swap_remove_mid pre suf' q) as (suf2 & -> & Hp2). cbn [rbind].
      assert (lenN suf2 = lenN suf') as Hl2 by (unfold lenN; by rewrite Hp2).
      rewrite !lenN_app, !lenN_cons in *.
      destruct (N.ltb_spec t' 1); [lia|].
      exists suf2, (t' - 1). split; [done|]. split; [by rewrite Hp2|]. split; [lia|by constructor].
    + rewrite Hr. exists (q :: suf'), t'. split; [done|]. split; [by rewrite Hp|].
      rewrite !lenN_cons. split; [lia|by constructor].
Qed.

Lemma scan_none bits i l :
  scan_proofs bits i l = None -> exists q, q ∈ l /\ bits_is_subset bits (pr_bits q) = true.
Proof.
  revert i. induction l as [|q l IH]; intros i; cbn [scan_proofs]; [done|].
  destruct (bits_is_subset bits (pr_bits q)) eqn:E.
  - intros _. exists q. split; [left|done].
  - destruct (scan_proofs bits (S i) l) eqn:Es; [done|]. intros _.
    destruct (IH _ Es) as (q' & H1 & H2). exists q'. split; [by right|done].
Qed.

(** No stored proof is contained in another. *)
Definition antichain (l : list Proof_) : Prop :=
  forall i j p q, l !! i = Some p -> l !! j = Some q -> i <> j -> ~ covered (pr_bits p) (pr_bits q).
Lemma antichain_perm l l' : l ≡ₚ l' -> antichain l -> antichain l'.
Proof.
  intros Hp Ha i j p q Hi Hj Hne Hc. symmetry in Hp. apply Permutation_inj in Hp as [Hlen (f & Hinj & Hf)].
  rewrite Hf in Hi, Hj.
  apply (Ha (f i) (f j) p q Hi Hj); [|done]. intros Heq. by apply Hne, Hinj.
Qed.
Lemma antichain_sub l l' : sublist l l' -> antichain l' -> antichain l.
Proof.
  intros Hs. induction Hs as [|x l l' Hs IH|x l l' Hs IH]; [done| |].
  - intros Ha. intros [|i] [|j] p q Hi Hj Hne; try done.
    + injection Hi as ->. cbn in Hj. apply elem_of_list_lookup_2 in Hj.
      apply (elem_of_submseteq l l') in Hj as [k Hk]%elem_of_list_lookup_1; [|by apply sublist_submseteq]. apply (Ha 0%nat (S k) p q); try done.
    + injection Hj as ->. cbn in Hi. apply elem_of_list_lookup_2 in Hi.
      apply (elem_of_submseteq l l') in Hi as [k Hk]%elem_of_list_lookup_1; [|by apply sublist_submseteq]. apply (Ha (S k) 0%nat p q); try done.
    + apply (IH (fun a b p q H1 H2 Hne => Ha (S a) (S b) p q H1 H2 ltac:(lia)) i j p q); try done. lia.
  - intros Ha. apply IH. intros a b p q H1 H2 Hne. apply (Ha (S a) (S b) p q); try done. lia.
Qed.

Lemma antichain_filter f l : antichain l -> antichain (List.filter f l).
Proof. apply antichain_sub, lfilter_sublist. Qed.
Lemma antichain_snoc l p :
  antichain l -> (forall q, q ∈ l -> ~ covered (pr_bits q) (pr_bits p) /\ ~ covered (pr_bits p) (pr_bits q)) ->
  antichain (l ++ [p]).
Proof.
  intros Ha Hp i j x y Hi Hj Hne.
  apply lookup_app_Some in Hi as [Hi|[Hil Hi]]; apply lookup_app_Some in Hj as [Hj|[Hjl Hj]].
  - by apply (Ha i j).
  - apply list_lookup_singleton_Some in Hj as [Hj ->]. apply Hp. by eapply elem_of_list_lookup_2.
  - apply list_lookup_singleton_Some in Hi as [Hi ->]. apply Hp. by eapply elem_of_list_lookup_2.
  - apply list_lookup_singleton_Some in Hj as [Hj _], Hi as [Hi _]. lia.
Qed.

Section PayloadProofs.
  Context (ad_hash : AttestationData -> H256).
  Notation push := (payload_push ad_hash).

  Record pool_ok (b : Buf PayloadEntry) : Prop := {
    po_buf : buf_ok pe_size b;
    po_key : forall r e, bf_data b !! r = Some e -> ad_hash (pe_data e) = r;
    po_ne : forall r e, bf_data b !! r = Some e -> pe_proofs e <> [];
    po_anti : forall r e, bf_data b !! r = Some e -> antichain (pe_proofs e);
  }.

  Lemma pool_new_ok cap : pool_ok (buf_new cap).
  Proof.
    split; [split; cbn| | |]; try (intros r e H; cbn in H; by rewrite lookup_empty in H).
    - constructor.
    - intros r. rewrite lookup_empty. split; [by intros ?%elem_of_nil|by intros [? ?]].
    - by rewrite size_sum_empty.
    - lia.
  Qed.

  (** Effect of one push. *)
  Definition push_effect (b : Buf PayloadEntry) (d : AttestationData) (p : Proof_) (b' : Buf PayloadEntry) : Prop :=
    let r := ad_hash d in
    (b' = b /\ exists q, q ∈ proofs_of b r /\ covered (pr_bits p) (pr_bits q)) \/
    (forall q, q ∈ proofs_of b r -> ~ covered (pr_bits p) (pr_bits q)) /\
    exists k e,
      let order := if decide (r ∈ bf_order b) then bf_order b else bf_order b ++ [r] in
      let data := <[r := e]> (bf_data b) in
      (k <= length order)%nat /\
      bf_order b' = drop k order /\
      bf_data b' = without (take k order) data /\
      (forall j, (j < k)%nat -> bf_cap b < size_sum pe_size (without (take j order) data)) /\
      pe_data e = default d (pe_data <$> bf_data b !! r) /\
      (forall q, q ∈ pe_proofs e <-> q = p \/ q ∈ proofs_of b r /\ ~ covered (pr_bits q) (pr_bits p)).

  Lemma pool_ok_evict data order cap :
    NoDup order -> (forall r, r ∈ order <-> is_Some (data !! r)) ->
    (forall r e, data !! r = Some e -> ad_hash (pe_data e) = r) ->
    (forall r e, data !! r = Some e -> pe_proofs e <> []) ->
    (forall r e, data !! r = Some e -> antichain (pe_proofs e)) ->
    exists k b, evict pe_size data order cap (size_sum pe_size data) = Ok b /\
      bf_order b = drop k order /\ bf_data b = without (take k order) data /\
      bf_cap b = cap /\ pool_ok b /\ (k <= length order)%nat /\
      (forall j, (j < k)%nat -> cap < size_sum pe_size (without (take j order) data)).
  Proof.
    intros H1 H2 H3 H4 H5. destruct (evict_spec pe_size data order cap H1 H2) as (k & b & E1 & E2 & E3 & E4 & E5 & E6 & E7).
    exists k, b. repeat (split; [done|]). split; [|done].
    assert (forall r e, bf_data b !! r = Some e -> data !! r = Some e) as Hsub.
    { intros r e. rewrite E3, without_lookup. by destruct (decide _). }
    split; eauto.
  Qed.

  Lemma push_spec b d p :
    pool_ok b -> exists b', push b d p = Ok b' /\ pool_ok b' /\ bf_cap b' = bf_cap b /\ push_effect b d p b'.
  Proof.
    intros Hb. pose proof Hb as [[Hnd Hdom Htot Hcap] Hkey Hne Hanti]. unfold payload_push.
    set (r := ad_hash d). destruct (bf_data b !! r) as [e|] eqn:He.
    - assert (proofs_of b r = pe_proofs e) as Hpo by (unfold proofs_of; by rewrite He).
      destruct (scan_proofs (pr_bits p) 0 (pe_proofs e)) as [is|] eqn:Es.
      + assert (lenN (pe_proofs e) <= bf_total b) as Hle.
        { rewrite Htot, (size_sum_delete pe_size _ _ _ He). unfold pe_size. lia. }
        destruct (scan_remove (pr_bits p) [] (pe_proofs e) is (bf_total b) Es Hle) as (l & t & Hr & Hp & Ht & Hf).
        cbn [app] in Hr. rewrite Hr. cbn [rbind fst snd].
        set (e' := mkPE (pe_data e) (l ++ [p])).
        assert (t + 1 = size_sum pe_size (<[r:=e']> (bf_data b))) as Hsz.
        { pose proof (size_sum_update pe_size _ r e e' He) as Hu.
          unfold pe_size at 2 4 in Hu. cbn [e' pe_proofs] in Hu. rewrite lenN_app in Hu.
          change (lenN [p]) with 1 in Hu. lia. }
        rewrite Hsz.
        assert (r ∈ bf_order b) as Hro by (apply Hdom; eauto).
        assert (forall q, q ∈ l <-> q ∈ pe_proofs e /\ ~ covered (pr_bits q) (pr_bits p)) as Hl.
        { intros q. rewrite Hp, lfilter_elem, negb_true_iff, subset_spec_false. done. }
        assert (forall q, q ∈ pe_proofs e -> ~ covered (pr_bits p) (pr_bits q)) as Hnot.
        { intros q Hq. rewrite Forall_forall in Hf. apply subset_spec_false. by apply Hf. }
        destruct (pool_ok_evict (<[r:=e']> (bf_data b)) (bf_order b) (bf_cap b)) as (k & b' & E1 & E2 & E3 & E4 & E5 & E6 & E7).
        * done.
        * intros r'. rewrite Hdom. destruct (decide (r' = r)) as [->|Hne'].
          -- rewrite lookup_insert, He. split; intros _; eauto.
          -- by rewrite lookup_insert_ne.
        * intros r' x Hx. apply lookup_insert_Some in Hx as [[<- <-]|[_ Hx]]; [|eauto]. cbn. eauto.
        * intros r' x Hx. apply lookup_insert_Some in Hx as [[<- <-]|[_ Hx]]; [|eauto]. cbn. by destruct l.
        * intros r' x Hx. apply lookup_insert_Some in Hx as [[<- <-]|[_ Hx]]; [|eauto]. cbn.
          apply antichain_snoc.
          -- apply (antichain_perm (List.filter (fun q => negb (bits_is_subset (pr_bits q) (pr_bits p))) (pe_proofs e))); [done|].
             apply antichain_filter. eauto.
          -- intros q Hq. apply Hl in Hq as [Hq1 Hq2]. split; [done|]. by apply Hnot.
        * exists b'. split; [done|]. split; [done|]. split; [done|]. right. fold r. rewrite Hpo. split; [done|].
          exists k, e'. cbn zeta. rewrite decide_True by done.
          repeat (split; [done|]). split; [by rewrite He|].
          intros q. cbn [e' pe_proofs]. rewrite elem_of_app, elem_of_list_singleton, Hl. tauto.
      + exists b. split; [done|]. split; [done|]. split; [done|]. left. split; [done|]. fold r.
        destruct (scan_none _ _ _ Es) as (q & H1 & H2). exists q. rewrite Hpo. split; [done|]. by apply subset_spec.
    - assert (proofs_of b r = []) as Hpo by (unfold proofs_of; by rewrite He).
      assert (r ∉ bf_order b) as Hro by (rewrite Hdom, He; by intros [? ?]).
      set (e' := mkPE d [p]).
      assert (bf_total b + 1 = size_sum pe_size (<[r:=e']> (bf_data b))) as ->.
      { rewrite size_sum_insert by done. unfold pe_size at 1. cbn. change (lenN [p]) with 1. lia. }
      destruct (pool_ok_evict (<[r:=e']> (bf_data b)) (bf_order b ++ [r]) (bf_cap b)) as (k & b' & E1 & E2 & E3 & E4 & E5 & E6 & E7).
      + apply NoDup_app. split; [done|]. split; [|apply NoDup_singleton].
        intros x Hx ->%elem_of_list_singleton. done.
      + intros r'. rewrite elem_of_app, elem_of_list_singleton, Hdom. destruct (decide (r' = r)) as [->|Hne'].
        * rewrite lookup_insert. split; [eauto|by right].
        * rewrite lookup_insert_ne by done. tauto.
      + intros r' x Hx. apply lookup_insert_Some in Hx as [[<- <-]|[_ Hx]]; [done|eauto].
      + intros r' x Hx. apply lookup_insert_Some in Hx as [[<- <-]|[_ Hx]]; [done|eauto].
      + intros r' x Hx. apply lookup_insert_Some in Hx as [[<- <-]|[_ Hx]]; [|eauto]. cbn.
        intros i j ? ? [-> _]%list_lookup_singleton_Some [-> _]%list_lookup_singleton_Some. done.
      + exists b'. split; [done|]. split; [done|]. split; [done|]. right. fold r. rewrite Hpo.
        split; [by intros q ?%elem_of_nil|]. exists k, e'. cbn zeta. rewrite decide_False by done.
        repeat (split; [done|]). split; [by rewrite He|].
        intros q. cbn [e' pe_proofs]. rewrite elem_of_list_singleton, elem_of_nil. tauto.
  Qed.

  Lemma prune_pool_spec fin b :
    pool_ok b -> exists b' n, payload_prune fin b = Ok (b', n) /\ pool_ok b' /\ bf_cap b' = bf_cap b /\
      (forall r e, bf_data b' !! r = Some e <-> bf_data b !! r = Some e /\ fin < cp_slot (ad_target (pe_data e))) /\
      sublist (bf_order b') (bf_order b).
  Proof.
    intros [H1 H2 H3 H4].
    destruct (prune_spec pe_size (fun e => fin <? cp_slot (ad_target (pe_data e))) b H1) as (b' & n & E1 & E2 & E3 & E4 & E5).
    exists b', n. split; [done|].
    assert (forall r e, bf_data b' !! r = Some e <-> bf_data b !! r = Some e /\ fin < cp_slot (ad_target (pe_data e))) as Hd.
    { intros r e. rewrite E4. by rewrite N.ltb_lt. }
    split; [|done]. split; [done| | |]; intros r e He; apply Hd in He as [He _]; eauto.
  Qed.

  (** Draining returns everything, in queue order, and empties the pool. *)
  Lemma drain_spec data order :
    NoDup order -> (forall r, r ∈ order <-> is_Some (data !! r)) ->
    drain_loop data order =
    (∅, concat (map (fun r => match data !! r with
                             | Some e => map (pair (pe_data e)) (pe_proofs e) | None => [] end) order)).
  Proof.
    revert data. induction order as [|r order IH]; intros data Hnd Hdom; cbn [drain_loop map concat].
    - f_equal. apply map_empty. intros r. destruct (data !! r) eqn:E; [|done].
      assert (r ∈ []) as Hin by (apply Hdom; eauto). by apply elem_of_nil in Hin.
    - apply NoDup_cons in Hnd as [Hr Hnd]. destruct (proj1 (Hdom r)) as [e He]; [left|]. rewrite He.
      rewrite IH; [|done|].
      + f_equal. f_equal. f_equal. apply map_ext_in. intros r' Hr'%elem_of_list_In.
        rewrite lookup_delete_ne; [done|]. by intros ->.
      + intros r'. destruct (decide (r' = r)) as [->|Hne].
        * rewrite lookup_delete. split; [done|]. by intros [? ?].
        * rewrite lookup_delete_ne by done. rewrite <- Hdom, elem_of_cons. tauto.
  Qed.
  Lemma drain_pool_spec b :
    pool_ok b -> (payload_drain b).1 = buf_new (bf_cap b) /\
      (payload_drain b).2 = concat (map (fun r => match bf_data b !! r with
                             | Some e => map (pair (pe_data e)) (pe_proofs e) | None => [] end) (bf_order b)).
  Proof.
    intros [[H1 H2 _ _] _ _ _]. unfold payload_drain. rewrite drain_spec by done. done.
  Qed.

  Lemma pool_step_ok b o :
    pool_ok b -> exists b', pool_step ad_hash b o = Ok b' /\ pool_ok b' /\ bf_cap b' = bf_cap b.
  Proof.
    intros Hb. destruct o as [d p| |fin]; cbn [pool_step].
    - destruct (push_spec b d p Hb) as (b' & H1 & H2 & H3 & _). eauto.
    - destruct (drain_pool_spec b Hb) as [-> _]. eexists. split; [done|]. split; [apply pool_new_ok|done].
    - destruct (prune_pool_spec fin b Hb) as (b' & n & -> & H1 & H2 & _). cbn. eauto.
  Qed.
  Lemma pool_run_ok b os bs b' :
    pool_ok b -> pool_run ad_hash b os bs b' -> pool_ok b' /\ bf_cap b' = bf_cap b /\ Forall pool_ok bs.
  Proof.
    intros Hb Hr. induction Hr as [b|b o b1 os bs b' Hs Hr IH]; [done|].
    destruct (pool_step_ok b o Hb) as (b1' & H1 & H2 & H3). rewrite Hs in H1. injection H1 as <-.
    destruct (IH H2) as (H4 & H5 & H6). split; [done|]. split; [by rewrite H5|by constructor].
  Qed.
  Lemma pool_run_total b os : pool_ok b -> exists bs b', pool_run ad_hash b os bs b'.
  Proof.
    revert b. induction os as [|o os IH]; intros b Hb; [exists [], b; constructor|].
    destruct (pool_step_ok b o Hb) as (b1 & H1 & H2 & _). destruct (IH _ H2) as (bs & b' & H).
    exists (b1 :: bs), b'. econstructor; eauto.
  Qed.

  (** Coverage persists as long as the entry is there. *)
  Definition covers (b : Buf PayloadEntry) (r : H256) (p : Proof_) : Prop :=
    exists q, q ∈ proofs_of b r /\ covered (pr_bits p) (pr_bits q).
  Lemma step_covers b o b' r p :
    pool_ok b -> pool_step ad_hash b o = Ok b' -> is_Some (bf_data b' !! r) -> covers b r p -> covers b' r p.
  Proof.
    intros Hb Hs Hr (q & Hq & Hc). destruct o as [d p'| |fin]; cbn [pool_step] in Hs.
    - destruct (push_spec b d p' Hb) as (b1 & H1 & _ & _ & He). rewrite Hs in H1. injection H1 as <-.
      destruct He as [[-> _]|(Hn & k & e & _ & _ & Hd & _ & _ & Hpe)]; [by exists q|].
      destruct Hr as [x Hx]. rewrite Hd, without_lookup in Hx. destruct (decide _); [done|].
      unfold covers, proofs_of. rewrite Hd, without_lookup, decide_False by done.
      destruct (decide (r = ad_hash d)) as [->|Hne].
      + rewrite lookup_insert. destruct (decide (bits_is_subset (pr_bits q) (pr_bits p') = true)) as [Hsub|Hsub].
        * exists p'. split; [apply Hpe; by left|]. eapply covered_trans; [done|]. by apply subset_spec.
        * exists q. split; [|done]. apply Hpe. right. split; [done|]. by rewrite <- subset_spec.
      + rewrite lookup_insert_ne by done. exists q. split; [exact Hq|done].
    - injection Hs as <-. destruct (drain_pool_spec b Hb) as [Hd _]. rewrite Hd in Hr. cbn in Hr.
      rewrite lookup_empty in Hr. by destruct Hr.
    - destruct (prune_pool_spec fin b Hb) as (b1 & n & E & _ & _ & Hd & _). rewrite E in Hs. injection Hs as <-.
      cbn [fst] in *. destruct Hr as [x Hx]. apply Hd in Hx as Hx'. destruct Hx' as [Hx' _].
      exists q. split; [|done]. unfold proofs_of in *. rewrite Hx. by rewrite Hx' in Hq.
  Qed.
  Lemma push_covers b d p b' :
    pool_ok b -> push b d p = Ok b' -> is_Some (bf_data b' !! ad_hash d) -> covers b' (ad_hash d) p.
  Proof.
    intros Hb Hs Hr. destruct (push_spec b d p Hb) as (b1 & H1 & _ & _ & He). rewrite Hs in H1. injection H1 as <-.
    destruct He as [[-> H]|(Hn & k & e & _ & _ & Hd & _ & _ & Hpe)]; [done|].
    destruct Hr as [x Hx]. rewrite Hd, without_lookup in Hx. destruct (decide _); [done|].
    exists p. split; [|apply covered_refl]. unfold proofs_of. rewrite Hd, without_lookup, decide_False, lookup_insert by done.
    apply Hpe. by left.
  Qed.
  Lemma run_covers b os bs b' r p :
    pool_ok b -> pool_run ad_hash b os bs b' -> Forall (fun b => is_Some (bf_data b !! r)) bs ->
    covers b r p -> covers b' r p.
  Proof.
    intros Hb Hr. induction Hr as [b|b o b1 os bs b' Hs Hr IH]; [done|].
    intros Hf Hc. apply Forall_cons in Hf as [Hf1 Hf].
    destruct (pool_step_ok b o Hb) as (b1' & H1 & H2 & _). rewrite Hs in H1. injection H1 as <-.
    apply IH; [done|done|]. exact (step_covers b o b1 r p Hb Hs Hf1 Hc).
  Qed.
End PayloadProofs.

(** ** Gossip signatures *)
Section GossipProofs.
  Context (ad_hash : AttestationData -> H256).

  Record sigs_ok (b : Buf GossipEntry) : Prop := {
    so_buf : buf_ok ge_size b;
    so_key : forall r e, bf_data b !! r = Some e -> ad_hash (ge_data e) = r;
    so_ne : forall r e, bf_data b !! r = Some e -> ge_sigs e <> ∅;
  }.
  Lemma sigs_new_ok cap : sigs_ok (buf_new cap).
  Proof.
    split; [split; cbn| |]; try (intros r e H; cbn in H; by rewrite lookup_empty in H).
    - constructor.
    - intros r. rewrite lookup_empty. split; [by intros ?%elem_of_nil|by intros [? ?]].
    - by rewrite size_sum_empty.
    - lia.
  Qed.

  Definition insert_effect (b : Buf GossipEntry) (d : AttestationData) (v sig : N) (b' : Buf GossipEntry) : Prop :=
    let r := ad_hash d in
    exists k,
      let order := if decide (r ∈ bf_order b) then bf_order b else bf_order b ++ [r] in
      let e := mkGE (default d (ge_data <$> bf_data b !! r))
                    (<[v := sig]> (default ∅ (ge_sigs <$> bf_data b !! r))) in
      let data := <[r := e]> (bf_data b) in
      (k <= length order)%nat /\
      bf_order b' = drop k order /\
      bf_data b' = without (take k order) data /\
      (forall j, (j < k)%nat -> bf_cap b < size_sum ge_size (without (take j order) data)).

  Lemma insert_spec b d v sig :
    sigs_ok b -> exists b', gossip_insert ad_hash b d v sig = Ok b' /\ sigs_ok b' /\
      bf_cap b' = bf_cap b /\ insert_effect b d v sig b'.
  Proof.
    intros Hb. pose proof Hb as [[Hnd Hdom Htot Hcap] Hkey Hne]. unfold gossip_insert, insert_effect.
    set (r := ad_hash d).
    assert (forall e' order, (forall x, bf_data b !! r = Some x -> ge_data e' = ge_data x) ->
      (bf_data b !! r = None -> ge_data e' = d) -> ge_sigs e' <> ∅ ->
      NoDup order -> (forall r', r' ∈ order <-> is_Some (<[r:=e']> (bf_data b) !! r')) ->
      exists k b', evict ge_size (<[r:=e']> (bf_data b)) order (bf_cap b) (size_sum ge_size (<[r:=e']> (bf_data b))) = Ok b' /\
        sigs_ok b' /\ bf_cap b' = bf_cap b /\ (k <= length order)%nat /\
        bf_order b' = drop k order /\ bf_data b' = without (take k order) (<[r:=e']> (bf_data b)) /\
        (forall j, (j < k)%nat -> bf_cap b < size_sum ge_size (without (take j order) (<[r:=e']> (bf_data b))))) as Hev.
    { intros e' order Hd1 Hd2 Hs Hno Hdo.
      destruct (evict_spec ge_size (<[r:=e']> (bf_data b)) order (bf_cap b) Hno Hdo) as (k & b' & E1 & E2 & E3 & E4 & E5 & E6 & E7).
      exists k, b'. split; [done|]. split; [|done].
      assert (forall r' x, bf_data b' !! r' = Some x -> (r' = r /\ x = e') \/ bf_data b !! r' = Some x) as Hsub.
      { intros r' x. rewrite E3, without_lookup. destruct (decide _); [done|].
        intros [[<- <-]|[_ ?]]%lookup_insert_Some; eauto. }
      split; [done| |].
      - intros r' x [[-> ->]|Hx]%Hsub; [|eauto]. destruct (bf_data b !! r) as [y|] eqn:Ey.
        + rewrite (Hd1 y eq_refl). eauto.
        + rewrite (Hd2 eq_refl). done.
      - intros r' x [[-> ->]|Hx]%Hsub; [done|eauto]. }
    destruct (bf_data b !! r) as [e|] eqn:He.
    - set (e' := mkGE (ge_data e) (<[v:=sig]> (ge_sigs e))).
      assert ((if bool_decide (ge_sigs e !! v = None) then bf_total b + 1 else bf_total b) =
              size_sum ge_size (<[r:=e']> (bf_data b))) as ->.
      { pose proof (size_sum_update ge_size _ r e e' He) as Hu. rewrite <- Htot in Hu.
        unfold ge_size at 2 3 in Hu. cbn [e' ge_sigs] in Hu.
        case_bool_decide as Hv.
        - rewrite map_size_insert_None in Hu by done. lia.
        - destruct (ge_sigs e !! v) eqn:Ev; [|done]. rewrite map_size_insert_Some in Hu by eauto. lia. }
      assert (r ∈ bf_order b) as Hro by (apply Hdom; eauto).
      destruct (Hev e' (bf_order b)) as (k & b' & E1 & E2 & E3 & E4 & E5 & E6 & E7); try done.
      + intros x [= <-]. done.
      + cbn. apply insert_non_empty.
      + intros r'. rewrite Hdom. destruct (decide (r' = r)) as [->|Hne'].
        * rewrite lookup_insert, He. split; intros _; eauto.
        * by rewrite lookup_insert_ne.
      + exists b'. split; [done|]. split; [done|]. split; [done|]. exists k. cbn zeta.
        rewrite decide_True by done. done.
    - set (e' := mkGE d {[v := sig]}).
      assert (r ∉ bf_order b) as Hro by (rewrite Hdom, He; by intros [? ?]).
      assert (bf_total b + 1 = size_sum ge_size (<[r:=e']> (bf_data b))) as ->.
      { rewrite size_sum_insert by done. unfold ge_size at 1. cbn [e' ge_sigs]. rewrite map_size_singleton. lia. }
      destruct (Hev e' (bf_order b ++ [r])) as (k & b' & E1 & E2 & E3 & E4 & E5 & E6 & E7); try done.
      + cbn. apply map_non_empty_singleton.
      + apply NoDup_app. split; [done|]. split; [|apply NoDup_singleton].
        intros x Hx ->%elem_of_list_singleton. done.
      + intros r'. rewrite elem_of_app, elem_of_list_singleton, Hdom. destruct (decide (r' = r)) as [->|Hne'].
        * rewrite lookup_insert. split; [eauto|by right].
        * rewrite lookup_insert_ne by done. tauto.
      + exists b'. split; [done|]. split; [done|]. split; [done|]. exists k. cbn zeta.
        rewrite decide_False by done. cbn [fmap option_fmap option_map]. done.
  Qed.

  (** Deletion removes exactly the keys. *)
  Lemma delete_loop_spec keys data total emptied :
    total = size_sum ge_size data ->
    (forall r e, data !! r = Some e -> ge_sigs e <> ∅) ->
    (forall r, r ∈ emptied -> data !! r = None) ->
    exists data' total' emptied',
      delete_loop keys data total emptied = Ok (data', total', emptied') /\
      total' = size_sum ge_size data' /\ total' <= total /\
      (forall r e, data' !! r = Some e -> ge_sigs e <> ∅ /\ exists e0, data !! r = Some e0 /\ ge_data e = ge_data e0) /\
      (forall r, r ∈ emptied' <-> r ∈ emptied \/ (is_Some (data !! r) /\ data' !! r = None)) /\
      (forall r v, (data' !! r ≫= fun e => ge_sigs e !! v) =
                   if bool_decide ((v, r) ∈ keys) then None else data !! r ≫= fun e => ge_sigs e !! v).
  Proof.
    revert data total emptied. induction keys as [|[v r] keys IH]; intros data total emptied Ht Hne Hem; cbn [delete_loop].
    - exists data, total, emptied. split; [done|]. split; [done|]. split; [lia|]. split; [|split].
      + intros r e He. split; [eauto|]. exists e. done.
      + intros r. split; [by left|]. intros [?|[[e He] Hn]]; [done|]. by rewrite He in Hn.
      + intros r v. rewrite bool_decide_false; [done|]. apply not_elem_of_nil.
    - destruct (data !! r) as [e|] eqn:He.
      + pose proof (size_sum_delete ge_size _ _ _ He) as Hs.
        set (present := bool_decide (is_Some (ge_sigs e !! v))).
        assert (present = true -> 1 <= ge_size e) as Hp1.
        { unfold present. rewrite bool_decide_eq_true. intros [s Hs']. unfold ge_size.
          destruct (decide (size (ge_sigs e) = 0%nat)) as [Hz|]; [|lia].
          apply map_size_empty_inv in Hz. by rewrite Hz, lookup_empty in Hs'. }
        assert (N.of_nat (size (delete v (ge_sigs e))) + (if present then 1 else 0) = ge_size e) as Hsz.
        { unfold ge_size in *. destruct present eqn:Ep; unfold present in Ep.
          - specialize (Hp1 eq_refl). apply bool_decide_eq_true in Ep.
            rewrite map_size_delete_Some by done. lia.
          - apply bool_decide_eq_false in Ep. rewrite delete_notin by (by apply eq_None_not_Some). lia. }
        destruct (present && (total <? 1)) eqn:Eg.
        { apply andb_true_iff in Eg as [Eg1 Eg2]. specialize (Hp1 Eg1). apply N.ltb_lt in Eg2. lia. }
        assert (forall v', (delete v (ge_sigs e) !! v' ) = if decide (v' = v) then None else ge_sigs e !! v') as Hdl.
        { intros v'. destruct (decide (v' = v)) as [->|]; [apply lookup_delete|by rewrite lookup_delete_ne]. }
        assert (forall data2 : gmap H256 GossipEntry,
          (forall r' v', (data2 !! r' ≫= fun e => ge_sigs e !! v') =
              if decide (r' = r) then (if decide (v' = v) then None else ge_sigs e !! v')
              else data !! r' ≫= fun e => ge_sigs e !! v') ->
          forall data' : gmap H256 GossipEntry,
          (forall r v, (data' !! r ≫= fun e => ge_sigs e !! v) =
                   if bool_decide ((v, r) ∈ keys) then None else data2 !! r ≫= fun e => ge_sigs e !! v) ->
          (forall r' v', (data' !! r' ≫= fun e => ge_sigs e !! v') =
                   if bool_decide ((v', r') ∈ (v, r) :: keys) then None else data !! r' ≫= fun e => ge_sigs e !! v')) as Hcomp.
        { intros data2 H2 data' H' r' v'. rewrite H', H2.
          destruct (decide ((v', r') ∈ keys)) as [Hin|Hin].
          - rewrite !bool_decide_true; [done|by right|done].
          - rewrite (bool_decide_false ((v', r') ∈ keys)) by done.
            destruct (decide (r' = r)) as [->|Hr]; [destruct (decide (v' = v)) as [->|Hv]|].
            + rewrite bool_decide_true; [done|left].
            + rewrite bool_decide_false; [by rewrite He|]. rewrite elem_of_cons. intros [Hx|?]; [by simplify_eq|done].
            + rewrite bool_decide_false; [done|]. rewrite elem_of_cons. intros [Hx|?]; [by simplify_eq|done]. }
        case_bool_decide as Hempty.
        * rewrite Hempty, map_size_empty in Hsz.
          destruct (IH (delete r data) (if present then total - 1 else total) ({[r]} ∪ emptied))
            as (data' & total' & emptied' & E1 & E2 & E3 & E4 & E5 & E6).
          -- destruct present; lia.
          -- intros r' e' [_ He']%lookup_delete_Some. eauto.
          -- intros r'. rewrite elem_of_union, elem_of_singleton. intros [->|Hr']; [apply lookup_delete|].
             apply lookup_delete_None. right. by apply Hem.
          -- exists data', total', emptied'. split; [done|]. split; [done|]. split; [destruct present; lia|].
             split; [|split].
             ++ intros r' e' He'. destruct (E4 _ _ He') as (H1 & e0 & H2 & H3). split; [done|].
                apply lookup_delete_Some in H2 as [_ H2]. eauto.
             ++ intros r'. rewrite E5, elem_of_union, elem_of_singleton.
                destruct (decide (r' = r)) as [->|Hr].
                ** rewrite lookup_delete. split.
                   --- intros _. right. split; [eauto|]. destruct (data' !! r) as [x|] eqn:Ex; [|done].
                       destruct (E4 _ _ Ex) as (_ & e0 & H2 & _). by rewrite lookup_delete in H2.
                   --- intros _. left. by left.
                ** rewrite lookup_delete_ne by done. tauto.
             ++ apply (Hcomp (delete r data)); [|done]. intros r' v'. destruct (decide (r' = r)) as [->|Hr].
                ** rewrite lookup_delete. cbn. rewrite <- (Hdl v'), Hempty. by rewrite lookup_empty.
                ** by rewrite lookup_delete_ne.
        * set (e2 := mkGE (ge_data e) (delete v (ge_sigs e))).
          pose proof (size_sum_update ge_size _ r e e2 He) as Hu.
          change (ge_size e2) with (N.of_nat (size (delete v (ge_sigs e)))) in Hu.
          destruct (IH (<[r:=e2]> data) (if present then total - 1 else total) emptied)
            as (data' & total' & emptied' & E1 & E2 & E3 & E4 & E5 & E6).
          -- destruct present; lia.
          -- intros r' e' [[<- <-]|[_ He']]%lookup_insert_Some; [done|eauto].
          -- intros r' Hr'. pose proof (Hem _ Hr') as Hn. apply lookup_insert_None. split; [done|]. intros ->.
             by rewrite He in Hn.
          -- exists data', total', emptied'. split; [done|]. split; [done|]. split; [destruct present; lia|].
             split; [|split].
             ++ intros r' e' He'. destruct (E4 _ _ He') as (H1 & e0 & H2 & H3). split; [done|].
                apply lookup_insert_Some in H2 as [[<- <-]|[_ H2]]; [|eauto]. exists e. done.
             ++ intros r'. rewrite E5. destruct (decide (r' = r)) as [->|Hr].
                ** rewrite lookup_insert, He. split; (intros [?|[_ ?]]; [by left|right; eauto]).
                ** by rewrite lookup_insert_ne.
             ++ apply (Hcomp (<[r:=e2]> data)); [|done]. intros r' v'. destruct (decide (r' = r)) as [->|Hr].
                ** rewrite lookup_insert. cbn. apply (Hdl v').
                ** by rewrite lookup_insert_ne.
      + destruct (IH data total emptied Ht Hne Hem) as (data' & total' & emptied' & E1 & E2 & E3 & E4 & E5 & E6).
        exists data', total', emptied'. repeat (split; [done|]). intros r' v'. rewrite E6.
        destruct (decide ((v', r') ∈ keys)) as [Hin|Hin].
        * rewrite !bool_decide_true; [done|by right|done].
        * rewrite (bool_decide_false ((v', r') ∈ keys)) by done. case_bool_decide as Hc; [|done].
          apply elem_of_cons in Hc as [[= -> ->]|]; [|done]. by rewrite He.
  Qed.

  Lemma delete_spec b keys :
    sigs_ok b -> exists b', gossip_delete b keys = Ok b' /\ sigs_ok b' /\ bf_cap b' = bf_cap b /\
      (forall r v, sig_of b' r v = if bool_decide ((v, r) ∈ keys) then None else sig_of b r v).
  Proof.
    intros Hb. pose proof Hb as [[Hnd Hdom Htot Hcap] Hkey Hne]. unfold gossip_delete.
    destruct (delete_loop_spec keys (bf_data b) (bf_total b) ∅ Htot Hne) as (data & total & em & E1 & E2 & E3 & E4 & E5 & E6).
    { intros r Hr. by apply elem_of_empty in Hr. }
    rewrite E1. cbn [rbind]. eexists. split; [done|]. split; [|split; [done|]].
    - split; cbn.
      + assert (forall r, (r ∈ bf_order b /\ r ∉ em) <-> is_Some (data !! r)) as Hd.
        { intros r. rewrite Hdom, E5. split.
          - intros [[e He] Hn]. destruct (data !! r) eqn:Er; [eauto|]. destruct Hn. right. eauto.
          - intros [e He]. destruct (E4 _ _ He) as (_ & e0 & H0 & _). split; [eauto|].
            intros [H|[_ H]]; [by apply elem_of_empty in H|]. by rewrite He in H. }
        split; cbn.
        * case_bool_decide; [done|]. by apply lfilter_nodup.
        * intros r. rewrite <- Hd. case_bool_decide as Hem.
          -- rewrite Hem. split; [|tauto]. intros H. split; [done|]. apply not_elem_of_empty.
          -- rewrite lfilter_elem, negb_true_iff, bool_decide_eq_false. done.
        * done.
        * lia.
      + intros r e He. destruct (E4 _ _ He) as (_ & e0 & H0 & H1). rewrite H1. eauto.
      + intros r e He. by destruct (E4 _ _ He).
    - intros r v. unfold sig_of. cbn. specialize (E6 r v).
      destruct (data !! r), (bf_data b !! r); exact E6.
  Qed.

  Lemma prune_sigs_spec fin b :
    sigs_ok b -> exists b' n, gossip_prune fin b = Ok (b', n) /\ sigs_ok b' /\ bf_cap b' = bf_cap b /\
      (forall r e, bf_data b' !! r = Some e <-> bf_data b !! r = Some e /\ fin < ad_slot (ge_data e)).
  Proof.
    intros [H1 H2 H3].
    destruct (prune_spec ge_size (fun e => fin <? ad_slot (ge_data e)) b H1) as (b' & n & E1 & E2 & E3 & E4 & E5).
    exists b', n. split; [done|].
    assert (forall r e, bf_data b' !! r = Some e <-> bf_data b !! r = Some e /\ fin < ad_slot (ge_data e)) as Hd.
    { intros r e. rewrite E4. by rewrite N.ltb_lt. }
    split; [|done]. split; [done| |]; intros r e He; apply Hd in He as [He _]; eauto.
  Qed.

  Lemma sig_step_ok b o :
    sigs_ok b -> exists b', sig_step ad_hash b o = Ok b' /\ sigs_ok b' /\ bf_cap b' = bf_cap b.
  Proof.
    intros Hb. destruct o as [d v s|ks|fin]; cbn [sig_step].
    - destruct (insert_spec b d v s Hb) as (b' & H1 & H2 & H3 & _). eauto.
    - destruct (delete_spec b ks Hb) as (b' & H1 & H2 & H3 & _). eauto.
    - destruct (prune_sigs_spec fin b Hb) as (b' & n & -> & H1 & H2 & _). cbn. eauto.
  Qed.
  Lemma sig_run_ok b os b' :
    sigs_ok b -> sig_run ad_hash b os b' -> sigs_ok b' /\ bf_cap b' = bf_cap b.
  Proof.
    intros Hb Hr. induction Hr as [b|b os b1 o b' Hr IH Hs]; [done|].
    destruct (IH Hb) as [H1 H2]. destruct (sig_step_ok b1 o H1) as (b2 & E1 & E2 & E3).
    rewrite Hs in E1. injection E1 as <-. split; [done|]. by rewrite E3.
  Qed.
  Lemma sig_run_total b os : sigs_ok b -> exists b', sig_run ad_hash b os b'.
  Proof.
    intros Hb. induction os as [|o os IH] using rev_ind; [exists b; constructor|].
    destruct IH as [b1 H1]. destruct (sig_run_ok _ _ _ Hb H1) as [H2 _].
    destruct (sig_step_ok b1 o H2) as (b2 & E1 & _). exists b2. econstructor; eauto.
  Qed.
  Lemma last_inserted_snoc os o r v acc :
    last_inserted ad_hash (os ++ [o]) r v acc =
    match o with
    | SInsert d v' s => if bool_decide (ad_hash d = r /\ v' = v) then Some s else last_inserted ad_hash os r v acc
    | _ => last_inserted ad_hash os r v acc
    end.
  Proof.
    revert acc. induction os as [|o' os IH]; intros acc; cbn [app last_inserted].
    - by destruct o.
    - destruct o'; apply IH.
  Qed.
  Lemma sig_run_last cap os b r v s :
    sig_run ad_hash (buf_new cap) os b -> sig_of b r v = Some s -> last_inserted ad_hash os r v None = Some s.
  Proof.
    remember (buf_new cap) as b0 eqn:Eb0. intros Hr. revert s.
    induction Hr as [b|b os b1 o b' Hr IH Hs]; subst b; intros s Hsig.
    - unfold sig_of in Hsig. cbn in Hsig. by rewrite lookup_empty in Hsig.
    - specialize (IH eq_refl). rewrite last_inserted_snoc.
      assert (sigs_ok b1) as H1 by (apply (sig_run_ok (buf_new cap) os b1); [apply sigs_new_ok|done]).
      destruct o as [d v' s'|ks|fin]; cbn [sig_step] in Hs.
      + destruct (insert_spec b1 d v' s' H1) as (b2 & E & _ & _ & k & _ & _ & Hd & _).
        rewrite Hs in E. injection E as <-. unfold sig_of in Hsig. rewrite Hd, without_lookup in Hsig.
        destruct (decide _); [done|]. case_bool_decide as Hc.
        * destruct Hc as [<- <-]. rewrite lookup_insert in Hsig. cbn [ge_sigs] in Hsig.
          rewrite lookup_insert in Hsig. done.
        * destruct (decide (ad_hash d = r)) as [<-|Hne].
          -- rewrite lookup_insert in Hsig. cbn [ge_sigs] in Hsig. rewrite lookup_insert_ne in Hsig by naive_solver.
             apply IH. unfold sig_of. destruct (bf_data b1 !! ad_hash d); [done|]. cbn in Hsig. by rewrite lookup_empty in Hsig.
          -- rewrite lookup_insert_ne in Hsig by done. by apply IH.
      + destruct (delete_spec b1 ks H1) as (b2 & E & _ & _ & Hd). rewrite Hs in E. injection E as <-.
        rewrite Hd in Hsig. case_bool_decide; [done|]. by apply IH.
      + destruct (prune_sigs_spec fin b1 H1) as (b2 & n & E & _ & _ & Hd). rewrite E in Hs. cbn in Hs. injection Hs as <-.
        apply IH. unfold sig_of in *. destruct (bf_data b2 !! r) as [e|] eqn:Ee; [|done].
        apply Hd in Ee as [-> _]. done.
  Qed.
End GossipProofs.
