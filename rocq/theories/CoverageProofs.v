(** Proofs about the coverage gauges (C80). *)
From Verif Require Import CoverageSpec NodeProofs ActorSafe DutyAsk.
Local Open Scope N_scope.

(** ** Writes *)
Definition shown_from (v0 : option N) (w : Writes) (g : Gauge) : option N :=
  fold_left (fun v x => if decide (x.1 = g) then Some x.2 else v) w v0.
Lemma shown_from_none w g v0 : g ∉ w.*1 -> shown_from v0 w g = v0.
Proof.
  revert v0. induction w as [|x w IH]; intros v0; cbn; [done|]. rewrite not_elem_of_cons. intros [H1 H2].
  rewrite decide_False by done. by apply IH.
Qed.
Lemma shown_from_some w g k v0 : NoDup w.*1 -> (g, k) ∈ w -> shown_from v0 w g = Some k.
Proof.
  revert v0. induction w as [|x w IH]; intros v0; cbn; [by intros _ ?%elem_of_nil|].
  rewrite NoDup_cons, elem_of_cons. intros [H1 H2] [<-|H].
  - cbn in *. rewrite decide_True by done. by apply shown_from_none.
  - by apply IH.
Qed.
Lemma shown_from_app v0 w1 w2 g : shown_from v0 (w1 ++ w2) g = shown_from (shown_from v0 w1 g) w2 g.
Proof. apply fold_left_app. Qed.

(** ** Counting *)
Lemma number_indices l (P : N -> Prop) :
  (forall v, l !! N.to_nat v = Some true <-> P v) -> number P (count_true l).
Proof.
  intros H. exists (validator_indices l). split_and!; [apply validator_indices_NoDup| |apply validator_indices_length].
  intros v. by rewrite validator_indices_spec.
Qed.
Lemma number_iff P Q k : (forall v, P v <-> Q v) -> number P k -> number Q k.
Proof. intros H (l & H1 & H2 & H3). exists l. split_and!; [done| |done]. intros v. by rewrite H2. Qed.
Lemma number_unique P j k : number P j -> number P k -> j = k.
Proof.
  intros (l & H1 & H2 & <-) (l' & H1' & H2' & <-). unfold lenN. f_equal. apply Permutation_length, NoDup_Permutation; [done..|].
  intros v. by rewrite H2, H2'.
Qed.

(** ** The two sets *)
Record covers (vc cc : N) (c : list bool * list bool) (P : N -> Prop) : Prop := mkCovers {
  cv_pos : 0 < cc;
  cv_len1 : lenN c.1 = vc;
  cv_len2 : lenN c.2 = cc;
  cv_seen : forall v, c.1 !! N.to_nat v = Some true <-> v < vc /\ P v;
  cv_sub : forall i, c.2 !! N.to_nat i = Some true <-> exists v, v < vc /\ v mod cc = i /\ P v }.
Lemma covers_iff vc cc c P Q : (forall v, P v <-> Q v) -> covers vc cc c P -> covers vc cc c Q.
Proof.
  intros H [? ? ? H1 H2]. split; try done.
  - intros v. by rewrite H1, H.
  - intros i. rewrite H2. by setoid_rewrite H.
Qed.
Lemma covers_empty vc cc : 0 < cc -> covers vc cc (cov_empty vc cc) (fun _ => False).
Proof.
  intros Hc. unfold cov_empty. split; cbn; [done|unfold lenN; rewrite replicate_length; lia..| |].
  - intros v. split; [|tauto]. intros H. by apply lookup_replicate in H as [? _].
  - intros v. split; [|intros (? & ? & ? & [])]. intros H. by apply lookup_replicate in H as [? _].
Qed.
Lemma insert_true l i j : (i < length l)%nat -> <[i:=true]> l !! j = Some true <-> l !! j = Some true \/ j = i.
Proof.
  intros Hi. destruct (decide (i = j)) as [<-|Hn].
  - rewrite list_lookup_insert by done. tauto.
  - rewrite list_lookup_insert_ne by done. split; [tauto|]. intros [| ->]; [done|lia].
Qed.
Lemma covers_one vc cc c P vid :
  covers vc cc c P ->
  covers vc cc (if vid <? lenN c.1 then (<[N.to_nat vid := true]> c.1, <[N.to_nat (vid mod cc) := true]> c.2) else c)
    (fun v => P v \/ v = vid).
Proof.
  intros [Hp H1 H2 H3 H4]. rewrite H1. destruct (N.ltb_spec vid vc) as [Hv|Hv].
  - split; cbn; [done|by unfold lenN in *; rewrite insert_length..| |].
    + intros v. rewrite insert_true by (unfold lenN in *; lia). rewrite H3. split.
      * intros [?|?]; [tauto|]. assert (v = vid) by lia. subst. tauto.
      * intros [? [?| ->]]; tauto.
    + assert (vid mod cc < cc) by (apply N.mod_lt; lia).
      intros i. rewrite insert_true by (unfold lenN in *; lia). rewrite H4. split.
      * intros [(v & ? & ? & ?)|?]; [exists v; tauto|]. exists vid. split_and!; [done|lia|tauto].
      * intros (v & ? & ? & [?| ->]); [left; by exists v|right; lia].
  - split; [done..| |].
    + intros v. rewrite H3. split; [tauto|]. intros [? [?| ->]]; [tauto|lia].
    + intros i. rewrite H4. split; [intros (v & ? & ? & ?); exists v; tauto|].
      intros (v & ? & ? & [?| ->]); [by exists v|lia].
Qed.
Lemma covers_fold vc cc l c P :
  covers vc cc c P ->
  covers vc cc (fold_left (fun c vid =>
         if vid <? lenN c.1 then (<[N.to_nat vid := true]> c.1, <[N.to_nat (vid mod cc) := true]> c.2) else c) l c)
    (fun v => P v \/ v ∈ l).
Proof.
  revert c P. induction l as [|x l IH]; intros c P H; cbn.
  - eapply covers_iff; [|exact H]. intros v. rewrite elem_of_nil. tauto.
  - eapply covers_iff; [|apply IH, covers_one, H]. intros v. cbn. rewrite elem_of_cons. tauto.
Qed.
Lemma covers_add vc cc c P bits : covers vc cc c P -> covers vc cc (cov_add c bits) (fun v => P v \/ has_bit bits v).
Proof.
  intros H. unfold cov_add. pose proof (cv_pos _ _ _ _ H). rewrite (cv_len2 _ _ _ _ H).
  destruct (N.eqb_spec cc 0) as [->|_]; [lia|].
  eapply covers_iff; [|apply covers_fold, H]. intros v. cbn. by rewrite validator_indices_spec.
Qed.
Lemma covers_all {A} vc cc (f : A -> Bits) (ok : A -> bool) l c P :
  covers vc cc c P ->
  covers vc cc (fold_left (fun c x => if ok x then cov_add c (f x) else c) l c)
    (fun v => P v \/ exists x, x ∈ l /\ ok x = true /\ has_bit (f x) v).
Proof.
  revert c P. induction l as [|x l IH]; intros c P H; cbn.
  - eapply covers_iff; [|exact H]. intros v. split; [tauto|]. intros [?|(x & Hx & _)]; [done|]. by apply elem_of_nil in Hx.
  - destruct (ok x) eqn:Hx.
    + eapply covers_iff; [|apply IH, covers_add, H]. intros v. cbn. setoid_rewrite elem_of_cons. split.
      * intros [[?|?]|(y & ? & ? & ?)]; [tauto|right; exists x; tauto|right; exists y; tauto].
      * intros [?|(y & [->|?] & ? & ?)]; [tauto|tauto|right; exists y; tauto].
    + eapply covers_iff; [|apply IH, H]. intros v. cbn. setoid_rewrite elem_of_cons. split.
      * intros [?|(y & ? & ? & ?)]; [tauto|right; exists y; tauto].
      * intros [?|(y & [->|?] & ? & ?)]; [tauto|congruence|right; exists y; tauto].
Qed.
Lemma or_into_true a b i : length a = length b ->
  or_into a b !! i = Some true <-> a !! i = Some true \/ b !! i = Some true.
Proof.
  intros Hl. unfold or_into. rewrite lookup_zip_with_Some. split.
  - intros (x & y & Hxy & -> & ->). destruct x, y; cbn in Hxy; try done; tauto.
  - intros H. assert (i < length a)%nat as Hi.
    { destruct H as [H|H]; apply lookup_lt_Some in H; lia. }
    destruct (lookup_lt_is_Some_2 a i Hi) as [x Hx]. destruct (lookup_lt_is_Some_2 b i) as [y Hy]; [lia|].
    exists x, y. split_and!; [|done..]. rewrite Hx, Hy in H. destruct H as [H|H]; injection H as ->; by destruct x || destruct y.
Qed.
Lemma covers_or vc cc c d P Q : covers vc cc c P -> covers vc cc d Q ->
  covers vc cc (or_into c.1 d.1, or_into c.2 d.2) (fun v => P v \/ Q v).
Proof.
  intros [Hp H1 H2 H3 H4] [_ H1' H2' H3' H4']. unfold lenN in *.
  split; cbn; unfold lenN; [done|unfold or_into; rewrite zip_with_length; lia..| |].
  - intros v. rewrite or_into_true by lia. rewrite H3, H3'. tauto.
  - intros i. rewrite or_into_true by lia. rewrite H4, H4'. split.
    + intros [(v & ? & ? & ?)|(v & ? & ? & ?)]; exists v; tauto.
    + intros (v & ? & ? & [?|?]); [left|right]; by exists v.
Qed.

(** ** Counts per subnet *)
Lemma alter_counts cc l c i k :
  0 < cc -> length c = N.to_nat cc -> c !! N.to_nat i = Some k ->
  fold_left (fun c vid => alter N.succ (N.to_nat (vid mod cc)) c) l c !! N.to_nat i =
    Some (k + lenN (filter (fun v => v mod cc = i) l)).
Proof.
  intros Hp. revert c k. induction l as [|x l IH]; intros c k Hl Hk; cbn [fold_left].
  - rewrite Hk. f_equal. change (k = k + 0). lia.
  - assert (x mod cc < cc) by (apply N.mod_lt; lia). rewrite filter_cons. destruct (decide (x mod cc = i)) as [Hi|Hi].
    + rewrite (IH _ (N.succ k)); [|by rewrite alter_length|].
      * f_equal. unfold lenN. cbn. lia.
      * rewrite Hi, list_lookup_alter, Hk. done.
    + apply IH; [by rewrite alter_length|]. rewrite list_lookup_alter_ne; [done|lia].
Qed.
Lemma subnet_counts_length cc l : length (subnet_counts cc l) = N.to_nat cc.
Proof.
  unfold subnet_counts. generalize (validator_indices l). intros k.
  assert (forall c : list N, length (fold_left (fun c vid => alter N.succ (N.to_nat (vid mod cc)) c) k c) = length c) as H.
  { induction k as [|x k IH]; intros c; cbn; [done|]. by rewrite IH, alter_length. }
  by rewrite H, replicate_length.
Qed.

(** ** One section *)
Lemma record_keys sec c g : g ∈ (cov_record sec c).*1 -> of_section sec g.
Proof.
  unfold cov_record. rewrite !fmap_app, !elem_of_app. cbn. rewrite !elem_of_list_singleton.
  intros [->|[H| ->]]; [done| |done].
  destruct (0 <? _); [|by apply elem_of_nil in H].
  rewrite fmap_imap in H. apply elem_of_lookup_imap in H as (i & x & -> & _). done.
Qed.
Lemma record_NoDup sec c : NoDup (cov_record sec c).*1.
Proof.
  unfold cov_record. rewrite !fmap_app. cbn. apply NoDup_cons. split.
  - rewrite elem_of_app, elem_of_list_singleton. intros [H|H]; [|done].
    destruct (0 <? _); [|by apply elem_of_nil in H].
    rewrite fmap_imap in H. by apply elem_of_lookup_imap in H as (i & x & ? & _).
  - apply NoDup_app. split_and!; [|intros g Hg|apply NoDup_singleton].
    + destruct (0 <? _); [|apply NoDup_nil_2]. rewrite fmap_imap. apply NoDup_alt. intros i j g Hi Hj.
      rewrite list_lookup_imap in Hi, Hj. apply fmap_Some in Hi as (x & _ & ->). apply fmap_Some in Hj as (y & _ & Hj).
      cbn in Hj. injection Hj. lia.
    + rewrite elem_of_list_singleton. intros ->.
      destruct (0 <? _); [|by apply elem_of_nil in Hg].
      rewrite fmap_imap in Hg. by apply elem_of_lookup_imap in Hg as (i & x & ? & _).
Qed.
Lemma record_shows vc cc c P sec w1 w2 :
  covers vc cc c P -> (forall g, of_section sec g -> g ∉ w2.*1) ->
  section_shows (w1 ++ cov_record sec c ++ w2) sec vc cc P.
Proof.
  intros [Hp H1 H2 H3 H4] Hw2.
  assert (forall g k, (g, k) ∈ cov_record sec c -> shown (w1 ++ cov_record sec c ++ w2) g = Some k) as Hs.
  { intros g k Hg. change (shown_from None (w1 ++ cov_record sec c ++ w2) g = Some k). rewrite !shown_from_app, (shown_from_none w2).
    - apply shown_from_some; [apply record_NoDup|done].
    - apply Hw2, (record_keys _ c). apply elem_of_list_fmap. by exists (g, k). }
  split_and!.
  - eexists. split; [apply Hs; unfold cov_record; rewrite !elem_of_app; left; by apply elem_of_list_singleton|]. apply number_indices. intros v. by rewrite H3.
  - intros i Hi.
    destruct (lookup_lt_is_Some_2 (subnet_counts cc c.1) (N.to_nat i)) as [k Hk]; [rewrite subnet_counts_length; lia|].
    exists k. split.
    + apply Hs. unfold cov_record. rewrite H2, (proj2 (N.ltb_lt 0 cc)), !elem_of_app by done. right. left. apply elem_of_lookup_imap. exists (N.to_nat i), k. split; [|done]. by rewrite N2Nat.id.
    + unfold subnet_counts in Hk. rewrite (alter_counts cc _ _ i 0) in Hk; [|done|by rewrite replicate_length|].
      2: { apply lookup_replicate. split; [done|lia]. }
      injection Hk as <-. exists (filter (fun v => v mod cc = i) (validator_indices c.1)). split_and!; [| |lia].
      * apply NoDup_filter, validator_indices_NoDup.
      * intros v. rewrite elem_of_list_filter, validator_indices_spec, H3. tauto.
  - eexists. split; [apply Hs; unfold cov_record; rewrite !elem_of_app; right; right; by apply elem_of_list_singleton|]. apply number_indices. intros i. by rewrite H4.
Qed.
Lemma shows_iff w sec vc cc P Q : (forall v, P v <-> Q v) -> section_shows w sec vc cc P -> section_shows w sec vc cc Q.
Proof.
  intros H ((k & H1 & H2) & H3 & (j & H4 & H5)). split_and!.
  - exists k. split; [done|]. eapply number_iff; [|exact H2]. intros v. cbn. by rewrite H.
  - intros i Hi. destruct (H3 i Hi) as (x & ? & Hx). exists x. split; [done|]. eapply number_iff; [|exact Hx]. intros v. cbn. by rewrite H.
  - exists j. split; [done|]. eapply number_iff; [|exact H5]. intros v. cbn. by setoid_rewrite H.
Qed.

(** ** The counts of the subnets add up *)
Lemma partition_length (f : N -> N) m l : (forall v, v ∈ l -> f v < m) ->
  lenN l = foldr N.add 0 (map (fun i => lenN (filter (fun v => f v = N.of_nat i) l)) (seq 0 (N.to_nat m))).
Proof.
  induction l as [|x l IH]; intros Hl.
  - cbn. induction (seq _ _) as [|j s IHs]; cbn [map foldr]; [done|]. by rewrite <- IHs.
  - assert (lenN (x :: l) = lenN l + 1) as -> by (unfold lenN; cbn [length]; lia).
    rewrite IH by (intros v Hv; apply Hl; by right).
    assert (f x < m) as Hx by (apply Hl; left).
    assert (forall s k, foldr N.add 0 (map (fun i => lenN (filter (fun v => f v = N.of_nat i) (x :: l))) (seq s k)) =
              foldr N.add 0 (map (fun i => lenN (filter (fun v => f v = N.of_nat i) l)) (seq s k)) +
              (if bool_decide (N.of_nat s <= f x < N.of_nat (s + k)) then 1 else 0)) as Hk.
    { intros s k. revert s. induction k as [|k IHk]; intros s; cbn [seq map foldr].
      - rewrite bool_decide_eq_false_2 by lia. lia.
      - rewrite IHk, filter_cons. destruct (decide (f x = N.of_nat s)) as [He|He].
        + rewrite bool_decide_eq_false_2 by lia. rewrite bool_decide_eq_true_2 by lia. unfold lenN. cbn [length]. lia.
        + destruct (decide (N.of_nat s <= f x < N.of_nat (s + S k))) as [Hd|Hd].
          * rewrite !bool_decide_eq_true_2 by lia. lia.
          * rewrite !bool_decide_eq_false_2 by lia. lia. }
    rewrite Hk, bool_decide_eq_true_2 by lia. done.
Qed.
Lemma shows_sum w sec vc cc P : 0 < cc -> section_shows w sec vc cc P ->
  shown w (GValidators sec None) =
    Some (foldr N.add 0 (map (fun i => default 0 (shown w (GValidators sec (Some (N.of_nat i))))) (seq 0 (N.to_nat cc)))).
Proof.
  intros Hc ((k & -> & l & Hl1 & Hl2 & <-) & H3 & _). f_equal.
  rewrite (partition_length (fun v => v mod cc) cc l) by (intros; apply N.mod_lt; lia).
  f_equal. apply map_ext_in. intros i Hi. apply in_seq in Hi.
  destruct (H3 (N.of_nat i)) as (j & -> & Hj); [lia|]. cbn.
  eapply number_unique; [|exact Hj]. exists (filter (fun v => v mod cc = N.of_nat i) l).
  split_and!; [by apply NoDup_filter| |done]. intros v. rewrite elem_of_list_filter, Hl2. tauto.
Qed.

(** ** The difference *)
Lemma count_diff_spec b t : length b = length t ->
  (count_diff b t).1 = count_true (zip_with (fun x y => x && negb y) b t) /\
  (count_diff b t).2 = count_true (zip_with (fun x y => negb x && y) b t).
Proof.
  revert t. induction b as [|x b IH]; intros [|y t]; cbn; try done. intros H. injection H as H.
  destruct (IH t H) as [H1 H2]. destruct (count_diff b t) as [i j]. cbn in *. subst. destruct x, y; cbn; lia.
Qed.
Lemma covers_diff vc cc b t P Q : covers vc cc b P -> covers vc cc t Q ->
  number (fun v => v < vc /\ P v /\ ~ Q v) (count_diff b.1 t.1).1 /\
  number (fun v => v < vc /\ ~ P v /\ Q v) (count_diff b.1 t.1).2.
Proof.
  intros [_ H1 _ H3 _] [_ H1' _ H3' _]. unfold lenN in *.
  destruct (count_diff_spec b.1 t.1) as [-> ->]; [lia|].
  split; apply number_indices; intros v; rewrite lookup_zip_with_Some; split.
  - intros (x & y & Hxy & Hx & Hy). destruct x, y; try done. split; [by apply H3|]. split; [by apply H3|].
    intros HQ. assert (v < vc) by (by apply H3). assert (t.1 !! N.to_nat v = Some true) by by apply H3'. congruence.
  - intros (Hv & HP & HQ). exists true. destruct (lookup_lt_is_Some_2 t.1 (N.to_nat v)) as [y Hy]; [lia|].
    exists y. split_and!; [|by apply H3|done]. destruct y; [|done]. apply H3' in Hy. tauto.
  - intros (x & y & Hxy & Hx & Hy). destruct x, y; try done. split; [by apply H3'|]. split; [|by apply H3'].
    intros HP. assert (v < vc) by (by apply H3'). assert (b.1 !! N.to_nat v = Some true) by by apply H3. congruence.
  - intros (Hv & HP & HQ). destruct (lookup_lt_is_Some_2 b.1 (N.to_nat v)) as [y Hy]; [lia|].
    exists y, true. split_and!; [|done|by apply H3']. destruct y; [|done]. apply H3 in Hy. tauto.
Qed.

(** ** What the channels hold *)
Lemma participants_spec n slot bits :
  (slot, bits) ∈ new_aggregated_payload_participants n <->
  exists k e p, bf_data (nd_new n) !! k = Some e /\ ad_slot (pe_data e) = slot /\ p ∈ pe_proofs e /\ pr_bits p = bits.
Proof.
  unfold new_aggregated_payload_participants. rewrite elem_of_list_In, in_concat. split.
  - intros (l & Hl & H). apply in_map_iff in Hl as ([k e] & <- & He). apply in_map_iff in H as (p & Hp & Hin).
    injection Hp as <- <-. apply elem_of_list_In, elem_of_map_to_list in He. apply elem_of_list_In in Hin. by exists k, e, p.
  - intros (k & e & p & He & <- & Hp & <-). exists (map (fun p => (ad_slot (pe_data e), pr_bits p)) (pe_proofs e)). split.
    + apply in_map_iff. exists (k, e). split; [done|]. by apply elem_of_list_In, elem_of_map_to_list.
    + apply in_map_iff. exists p. split; [done|]. by apply elem_of_list_In.
Qed.
Lemma covers_round vc cc slot entries : 0 < cc ->
  covers vc cc (cov_round slot entries (cov_empty vc cc)) (fun v => exists bits, (slot, bits) ∈ entries /\ has_bit bits v).
Proof.
  intros Hc. eapply covers_iff; [|apply (covers_all vc cc (fun x : N * Bits => x.2) (fun x => x.1 =? slot) entries), covers_empty, Hc].
  intros v. cbn. split.
  - intros [[]|([s bits] & Hin & Hs & Hb)]. cbn in *. apply N.eqb_eq in Hs as ->. by exists bits.
  - intros (bits & Hin & Hb). right. exists (slot, bits). cbn. by rewrite N.eqb_refl.
Qed.

Section Report.
  Context (E : Env).
  Lemma report_pf n s snap cc slot :
    head_state n = Ok s -> 0 < lenN (s_validators s) -> 0 < cc ->
    exists w, emit_post_block_coverage E n snap cc slot = Ok w /\
      ((forall v, v < lenN (s_validators s) -> ~ in_head_block E n slot v) /\ w = [] \/
       (exists v, v < lenN (s_validators s) /\ in_head_block E n slot v) /\
       section_shows w SecTimely (lenN (s_validators s)) cc (in_snapshot snap slot) /\
       section_shows w SecLate (lenN (s_validators s)) cc (in_pool n slot) /\
       section_shows w SecBlock (lenN (s_validators s)) cc (in_head_block E n slot) /\
       section_shows w SecCombined (lenN (s_validators s)) cc
         (fun v => in_snapshot snap slot v \/ in_pool n slot v \/ in_head_block E n slot v) /\
       (exists k, shown w (GDiff BlockOnly) = Some k /\
          number (fun v => v < lenN (s_validators s) /\ in_head_block E n slot v /\ ~ in_snapshot snap slot v) k) /\
       (exists k, shown w (GDiff TimelyOnly) = Some k /\
          number (fun v => v < lenN (s_validators s) /\ ~ in_head_block E n slot v /\ in_snapshot snap slot v) k) /\
       (forall sec g, of_section sec g -> sec = SecAggStartNew \/ sec = SecProposal -> shown w g = None)).
  Proof.
    intros Hs Hv Hc. unfold emit_post_block_coverage. rewrite Hs. cbn [rbind].
    set (vc := lenN (s_validators s)) in *.
    rewrite (proj2 (N.eqb_neq vc 0)), (proj2 (N.eqb_neq cc 0)) by lia. cbn [orb].
    set (timely := match snap with Some _ => _ | None => _ end).
    set (late := cov_round slot (new_aggregated_payload_participants n) _).
    set (block := match get_block _ _ _ with Some _ => _ | None => _ end).
    assert (covers vc cc timely (in_snapshot snap slot)) as Ht.
    { subst timely. unfold in_snapshot. destruct snap as [l|].
      - eapply covers_iff; [|apply covers_round, Hc]. intros v. cbn. split.
        + intros (bits & ? & ?). by exists l, bits.
        + intros (l' & bits & Hl & ? & ?). injection Hl as <-. by exists bits.
      - eapply covers_iff; [|apply covers_empty, Hc]. intros v. cbn. split; [done|]. by intros (? & ? & ? & _). }
    assert (covers vc cc late (in_pool n slot)) as Hl.
    { eapply covers_iff; [|apply covers_round, Hc]. intros v. cbn. unfold in_pool. setoid_rewrite participants_spec. split.
      - intros (bits & (k & e & p & ? & ? & ? & <-) & ?). by exists k, e, p.
      - intros (k & e & p & ? & ? & ? & ?). exists (pr_bits p). split; [|done]. by exists k, e, p. }
    assert (covers vc cc block (in_head_block E n slot)) as Hb.
    { subst block. unfold in_head_block. destruct (get_block _ _ _) as [b|].
      - eapply covers_iff; [|apply covers_round, Hc]. intros v. cbn. split.
        + intros (bits & Hin & ?). apply elem_of_list_In, in_map_iff in Hin as (a & Ha & Hin). injection Ha as <- <-.
          exists b. split; [done|]. exists a. split_and!; [by apply elem_of_list_In|done..].
        + intros (b' & Hb' & a & Hin & <- & ?). injection Hb' as <-. exists (at_bits a). split; [|done].
          apply elem_of_list_In, in_map_iff. exists a. split; [done|]. by apply elem_of_list_In.
      - eapply covers_iff; [|apply covers_empty, Hc]. intros v. cbn. split; [done|]. by intros (? & ? & _). }
    assert (covers vc cc (or_into (or_into timely.1 late.1) block.1, or_into (or_into timely.2 late.2) block.2)
              (fun v => in_snapshot snap slot v \/ in_pool n slot v \/ in_head_block E n slot v)) as Hcm.
    { eapply covers_iff; [|exact (covers_or _ _ _ _ _ _ (covers_or _ _ _ _ _ _ Ht Hl) Hb)]. intros v. cbn. tauto. }
    destruct (N.eqb_spec (count_true block.1) 0) as [H0|H0].
    - eexists. split; [done|]. left. split; [|done]. intros v Hlt Hin. rewrite count_true_0 in H0.
      apply (H0 (N.to_nat v)), (cv_seen _ _ _ _ Hb). done.
    - destruct (covers_diff _ _ _ _ _ _ Hb Ht) as [Hd1 Hd2].
      destruct (count_diff block.1 timely.1) as [bo to]. cbn in Hd1, Hd2.
      eexists. split; [done|]. right.
      assert (exists v, v < vc /\ in_head_block E n slot v) as Hex.
      { destruct (decide (validator_indices block.1 = [])) as [Hn|Hn].
        - exfalso. apply H0. rewrite <- validator_indices_length, Hn. done.
        - destruct (validator_indices block.1) as [|v l] eqn:Hi; [done|]. exists v. apply (cv_seen _ _ _ _ Hb), validator_indices_spec.
          rewrite Hi. left. }
      assert (forall sec c g, ~ of_section sec g -> g ∉ (cov_record sec c).*1) as Hk by (intros ??? H H'; by apply H, (record_keys _ c)).
      assert (forall (sec : Section_) g, of_section sec g -> forall d1 d2 : N, g ∉ [(GDiff BlockOnly, d1); (GDiff TimelyOnly, d2)].*1) as Hdf.
      { intros sec g Hg d1 d2. cbn. rewrite !elem_of_cons, elem_of_nil. intros [->|[->|[]]]; done. }
      split_and!; [done|..].
      + apply (record_shows _ _ _ _ SecTimely []); [done|]. intros g Hg. rewrite !fmap_app, !not_elem_of_app.
        split_and!; [apply Hk; by destruct g as [[]|[]|]..|by eapply Hdf].
      + apply (record_shows _ _ _ _ SecLate (cov_record SecTimely timely)); [done|]. intros g Hg. rewrite !fmap_app, !not_elem_of_app.
        split_and!; [apply Hk; by destruct g as [[]|[]|]..|by eapply Hdf].
      + rewrite (app_assoc (cov_record SecTimely timely)).
        apply (record_shows _ _ _ _ SecBlock (cov_record SecTimely timely ++ cov_record SecLate late)); [done|].
        intros g Hg. rewrite !fmap_app, !not_elem_of_app.
        split_and!; [apply Hk; by destruct g as [[]|[]|]..|by eapply Hdf].
      + rewrite !(app_assoc (cov_record SecTimely timely)), (app_assoc (_ ++ _) (cov_record SecBlock block)).
        apply (record_shows _ _ _ _ SecCombined ((cov_record SecTimely timely ++ cov_record SecLate late) ++ cov_record SecBlock block)); [done|].
        intros g Hg. by eapply Hdf.
      + exists bo. split; [|done]. unfold shown.
        rewrite !fold_left_app. cbn. done.
      + exists to. split; [|done]. unfold shown. rewrite !fold_left_app. cbn. done.
      + intros sec g Hg Hsec. apply (shown_from_none _ g None). rewrite !fmap_app, !not_elem_of_app.
        split_and!; [apply Hk; destruct g as [[]|[]|], Hsec; subst; done..|by eapply Hdf].
  Qed.
  Lemma agg_start_pf n s cc :
    head_state n = Ok s -> 0 < lenN (s_validators s) -> 0 < cc ->
    exists w, emit_agg_start_new_coverage n cc = Ok w /\
      section_shows w SecAggStartNew (lenN (s_validators s)) cc (fun v => exists slot, in_pool n slot v) /\
      (forall g, ~ of_section SecAggStartNew g -> shown w g = None).
  Proof.
    intros Hs Hv Hc. unfold emit_agg_start_new_coverage. rewrite Hs. cbn [rbind].
    rewrite (proj2 (N.eqb_neq (lenN (s_validators s)) 0)), (proj2 (N.eqb_neq cc 0)) by lia. cbn [orb].
    eexists. split; [done|]. split.
    - rewrite <- (app_nil_r (cov_record _ _)). apply (record_shows _ _ _ _ SecAggStartNew []).
      2: { intros g _. apply not_elem_of_nil. }
      eapply covers_iff; [|apply (covers_all _ cc (fun x : N * Bits => x.2) (fun _ => true)), covers_empty, Hc].
      intros v. cbn. split.
      + intros [[]|([slot bits] & Hin & _ & Hb)]. apply participants_spec in Hin as (k & e & p & ? & ? & ? & <-).
        exists slot, k, e, p. done.
      + intros (slot & k & e & p & ? & ? & ? & ?). right. exists (slot, pr_bits p). split_and!; [|done..].
        apply participants_spec. by exists k, e, p.
    - intros g Hg. apply (shown_from_none _ g None). intros H. by apply Hg, (record_keys _ _ _ H).
  Qed.
  Lemma proposal_pf n s cc l :
    head_state n = Ok s -> 0 < lenN (s_validators s) -> 0 < cc ->
    exists w, emit_proposal_coverage n cc l = Ok w /\
      section_shows w SecProposal (lenN (s_validators s)) cc (fun v => exists slot, in_atts l slot v) /\
      (forall g, ~ of_section SecProposal g -> shown w g = None).
  Proof.
    intros Hs Hv Hc. unfold emit_proposal_coverage. rewrite Hs. cbn [rbind].
    rewrite (proj2 (N.eqb_neq (lenN (s_validators s)) 0)), (proj2 (N.eqb_neq cc 0)) by lia. cbn [orb].
    eexists. split; [done|]. split.
    - rewrite <- (app_nil_r (cov_record _ _)). apply (record_shows _ _ _ _ SecProposal []).
      2: { intros g _. apply not_elem_of_nil. }
      eapply covers_iff; [|apply (covers_all _ cc at_bits (fun _ => true)), covers_empty, Hc].
      intros v. cbn. split.
      + intros [[]|(a & Hin & _ & Hb)]. exists (ad_slot (at_data a)), a. done.
      + intros (slot & a & ? & ? & ?). right. by exists a.
    - intros g Hg. apply (shown_from_none _ g None). intros H. by apply Hg, (record_keys _ _ _ H).
  Qed.
End Report.

(** ** The snapshot over a history of ticks *)
Lemma participants_nil n : new_aggregated_payload_participants n = [] <-> no_proofs n.
Proof.
  split.
  - intros H k e He. destruct (pe_proofs e) as [|p l] eqn:Hp; [done|].
    assert ((ad_slot (pe_data e), pr_bits p) ∈ new_aggregated_payload_participants n) as Hin.
    { apply participants_spec. exists k, e, p. split_and!; [done..| |done]. rewrite Hp. left. }
    rewrite H in Hin. by apply elem_of_nil in Hin.
  - intros H. destruct (new_aggregated_payload_participants n) as [|[slot bits] l] eqn:Hp; [done|].
    assert ((slot, bits) ∈ new_aggregated_payload_participants n) as Hin by (rewrite Hp; left).
    apply participants_spec in Hin as (k & e & p & He & _ & Hin & _). rewrite (H k e He) in Hin. by apply elem_of_nil in Hin.
Qed.
Lemma tick_snapshot_in s iv n slot v :
  in_snapshot (tick_snapshot s iv n) slot v <->
  (iv = 4 /\ in_pool n slot v) \/ ((iv = 4 -> no_proofs n) /\ in_snapshot s slot v).
Proof.
  unfold tick_snapshot, snapshot_new_payloads. destruct (N.eqb_spec iv 4) as [->|Hn]; [|tauto].
  destruct (new_aggregated_payload_participants n) as [|x l] eqn:Hp.
  - pose proof (proj1 (participants_nil n) Hp) as H0. split; [tauto|]. intros [(_ & k & e & p & He & _ & Hin & _)|[_ ?]]; [|done].
    rewrite (H0 k e He) in Hin. by apply elem_of_nil in Hin.
  - assert (~ no_proofs n) as Hno by (rewrite <- participants_nil, Hp; done).
    unfold in_snapshot at 1, in_pool. split.
    + intros (l' & bits & Hl & Hin & Hb). injection Hl as <-. rewrite <- Hp in Hin.
      apply participants_spec in Hin as (k & e & p & ? & ? & ? & <-). left. split; [done|]. by exists k, e, p.
    + intros [(_ & k & e & p & ? & ? & ? & ?)|[? _]]; [|tauto]. eexists _, (pr_bits p). split; [done|]. split; [|done].
      rewrite <- Hp. apply participants_spec. by exists k, e, p.
Qed.
Lemma ticks_snapshot_pf (ticks : list (N * Node)) slot v :
  in_snapshot (fold_left (fun s x => tick_snapshot s x.1 x.2) ticks None) slot v <->
  exists before n after, ticks = before ++ (4, n) :: after /\ in_pool n slot v /\
    forall n', (4, n') ∈ after -> no_proofs n'.
Proof.
  induction ticks as [|[iv n] ticks IH] using rev_ind.
  - cbn. split; [by intros (? & ? & ? & _)|]. by intros ([] & ? & ? & ? & _).
  - rewrite fold_left_app. cbn [fold_left fst snd]. rewrite tick_snapshot_in, IH. split.
    + intros [[-> Hin]|[Hno (b & m & a & -> & Hin & Ha)]].
      * exists ticks, n, []. split_and!; [done..|]. by intros ? ?%elem_of_nil.
      * exists b, m, (a ++ [(iv, n)]). split_and!; [by rewrite <- app_assoc|done|].
        intros n'. rewrite elem_of_app, elem_of_list_singleton. intros [?|H]; [by apply Ha|]. injection H as <- <-. by apply Hno.
    + intros (b & m & a & Heq & Hin & Ha). destruct a as [|y a _] using rev_ind.
      * apply app_inj_tail in Heq as [-> Heq]. injection Heq as -> ->. by left.
      * right. rewrite app_comm_cons, app_assoc in Heq. apply app_inj_tail in Heq as [-> <-]. split.
        -- intros ->. apply Ha. apply elem_of_app. right. by apply elem_of_list_singleton.
        -- exists b, m, a. split_and!; [done..|]. intros n' Hn'. apply Ha, elem_of_app. by left.
Qed.

Section Reach.
  Context (E : Env) (gt : N) (vals : list Validator).
  Context (Hgood : good_hash (e_header E)) (Hvals : lenN vals <= VALIDATOR_REGISTRY_LIMIT).
  Lemma reach_head n : reachable E gt vals n -> exists s, head_state n = Ok s /\ s_validators s = vals.
  Proof using Hgood Hvals.
    intros Hr. destruct (head_state_ok E gt vals Hgood Hvals n Hr) as [s Hs]. exists s. split; [done|].
    by eapply head_vals.
  Qed.
  Lemma sum_pf n snap cc slot w sec :
    reachable E gt vals n -> vals <> [] -> 0 < cc -> emit_post_block_coverage E n snap cc slot = Ok w -> w <> [] ->
    sec ∈ [SecTimely; SecLate; SecBlock; SecCombined] ->
    shown w (GValidators sec None) =
      Some (foldr N.add 0 (map (fun i => default 0 (shown w (GValidators sec (Some (N.of_nat i))))) (seq 0 (N.to_nat cc)))).
  Proof using Hgood Hvals.
    intros Hr Hv Hc Hw Hne Hsec. destruct (reach_head n Hr) as (s & Hs & Hsv).
    destruct (report_pf E n s snap cc slot Hs) as (w' & Hw' & H); [rewrite Hsv; unfold lenN; destruct vals; [done|cbn; lia]|done|].
    rewrite Hw' in Hw. injection Hw as ->. destruct H as [[_ ->]|(_ & H1 & H2 & H3 & H4 & _)]; [done|].
    rewrite !elem_of_cons, elem_of_nil in Hsec. destruct Hsec as [->|[->|[->|[->|[]]]]]; by eapply shows_sum.
  Qed.
End Reach.
