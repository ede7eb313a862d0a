From Verif Require Import WidthSpec STFChain STFThms.
Local Open Scope N_scope.

Lemma cadd_ok {X} a b : a + b < two64 -> cadd (X:=X) a b = Ok (a + b).
Proof. intros H. unfold cadd. by apply N.ltb_lt in H as ->. Qed.
Lemma csub_ok {X} a b : b <= a -> csub (X:=X) a b = Ok (a - b).
Proof. intros H. unfold csub. by apply N.leb_le in H as ->. Qed.
Lemma cmul_ok {X} a b : a * b < two64 -> cmul (X:=X) a b = Ok (a * b).
Proof. intros H. unfold cmul. by apply N.ltb_lt in H as ->. Qed.

Lemma extend_same slots f t : t < two64 -> extend_to_slot64 slots f t = extend_to_slot slots f t.
Proof.
  intros Ht. unfold extend_to_slot64, extend_to_slot, relative_index. destruct (N.ltb_spec t f); [done|].
  destruct (N.ltb_spec (t - f) 1); [done|]. rewrite cadd_ok by lia. reflexivity.
Qed.
Lemma root_to_slot_same hist f : f + 1 < two64 -> root_to_slot64 hist f = Ok (root_to_slot hist f).
Proof. intros H. unfold root_to_slot64, root_to_slot. by rewrite cadd_ok. Qed.
Lemma try_finalize_same s src tgt m rts : cp_slot src + 1 < two64 -> try_finalize64 s src tgt m rts = Ok (try_finalize s src tgt m rts).
Proof.
  intros H. unfold try_finalize64, try_finalize. destruct (N.leb_spec (cp_slot src) (cp_slot (s_finalized s))); [done|].
  rewrite cadd_ok by done. cbn [rbind]. destruct (any_justifiable _ _ _); [done|]. rewrite csub_ok by lia. reflexivity.
Qed.

(** The tallies: no longer than the registry, for the roots listed. *)
Definition tal (n : nat) (L : list H256) (m : gmap H256 (list bool)) : Prop :=
  forall r v, m !! r = Some v -> (length v <= n)%nat /\ r ∈ L.
Lemma tal_unpack n L : forall roots votes acc, (forall r, r ∈ roots -> r ∈ L) -> tal n L acc -> tal n L (unpack_tallies n roots votes acc).
Proof.
  induction roots as [|r roots IH]; intros votes acc HL Ha; [done|]. cbn [unpack_tallies]. apply IH.
  - intros x Hx. apply HL. by right.
  - intros x v Hx. destruct (decide (r = x)) as [->|Hne].
    + rewrite lookup_insert in Hx. injection Hx as <-. split; [rewrite take_length; lia|]. apply HL. by left.
    + rewrite lookup_insert_ne in Hx by done. by apply (Ha x v).
Qed.
Lemma count_true_bound l : count_true l <= N.of_nat (length l).
Proof.
  unfold count_true. induction l as [|[] l IH]; cbn in *; lia.
Qed.

Lemma process_one_same n L rts s m a : length (s_validators s) = n -> N.of_nat n <= VALIDATOR_REGISTRY_LIMIT -> tal n L m -> att_fits a ->
  process_one64 rts (s, m) a = process_one rts (s, m) a.
Proof.
  intros Hn Hl Hm Ha. unfold process_one64, process_one. destruct (is_valid_vote s (at_data a)) as [ok|e|] eqn:Hv; [|done|done].
  cbn [rbind]. destruct ok; cbn [negb]; [|done]. destruct (_ =? 0); [done|]. destruct (has_oob_bit _ _); [done|].
  set (v0 := match m !! _ with Some v => v | None => _ end).
  assert (length (mark_votes v0 (at_bits a)) <= n)%nat as Hlen.
  { rewrite mark_votes_length. unfold v0. destruct (m !! _) as [v|] eqn:Hr; [by apply (Hm _ _ Hr)|]. rewrite replicate_length. lia. }
  pose proof (count_true_bound (mark_votes v0 (at_bits a))) as Hc.
  change VALIDATOR_REGISTRY_LIMIT with 4096 in Hl. 
  rewrite (cmul_ok 3), (cmul_ok 2) by (unfold two64; lia). cbn [rbind]. destruct (_ <=? _); [|done].
  destruct (set_justified _ _ _) as [js|e|]; [|done|done]. cbn [rbind]. apply try_finalize_same.
  unfold is_valid_vote in Hv. destruct (is_slot_justified _ _ (cp_slot (ad_source _))) as [j1|e|]; [|done|done]. cbn [rbind] in Hv.
  destruct j1; [|done]. cbn [negb] in Hv. destruct (is_slot_justified _ _ _) as [j2|e|]; [|done|done]. cbn [rbind] in Hv.
  destruct j2; [done|]. destruct (attestation_data_matches_chain _ _); [|done]. cbn [negb] in Hv.
  destruct (N.leb_spec (cp_slot (ad_target (at_data a))) (cp_slot (ad_source (at_data a)))); [done|]. unfold att_fits in Ha. lia.
Qed.
Lemma process_one_keeps n L rts s m a s' m' : length (s_validators s) = n -> tal n L m -> cp_root (ad_target (at_data a)) ∈ L ->
  process_one rts (s, m) a = Ok (s', m') -> length (s_validators s') = n /\ tal n L m'.
Proof.
  intros Hn Hm Ha. unfold process_one. destruct (is_valid_vote s (at_data a)) as [ok|e|]; [|done|done].
  cbn [rbind]. destruct ok; cbn [negb]; [|by intros [= <- <-]]. destruct (_ =? 0); [done|]. destruct (has_oob_bit _ _); [done|].
  set (v0 := match m !! _ with Some v => v | None => _ end).
  assert (length (mark_votes v0 (at_bits a)) <= n)%nat as Hlen.
  { rewrite mark_votes_length. unfold v0. destruct (m !! _) as [v|] eqn:Hr; [by apply (Hm _ _ Hr)|]. rewrite replicate_length. lia. }
  set (k := cp_root (ad_target (at_data a))) in *. set (v1 := mark_votes v0 (at_bits a)) in *.
  assert (tal n L (<[k := v1]> m)) as Hm1.
  { intros x v Hx. destruct (decide (k = x)) as [<-|Hne].
    - rewrite lookup_insert in Hx. by injection Hx as <-.
    - rewrite lookup_insert_ne in Hx by done. by apply (Hm x v). }
  destruct (_ <=? _); [|by intros [= <- <-]].
  destruct (set_justified _ _ _) as [js|e|]; [|done|done]. cbn [rbind]. intros H. injection H as H. unfold try_finalize in H.
  assert (tal n L (delete k (<[k := v1]> m))) as Hm2.
  { intros x v Hx. apply lookup_delete_Some in Hx as [_ Hx]. by apply (Hm1 x v). }
  destruct (_ <=? _); [by injection H as <- <-|]. destruct (any_justifiable _ _ _); [by injection H as <- <-|].
  injection H as <- <-. split; [done|]. intros x v Hx. apply map_filter_lookup_Some in Hx as [Hx _]. by apply (Hm2 x v).
Qed.
Lemma process_all_same n L rts : N.of_nat n <= VALIDATOR_REGISTRY_LIMIT -> forall atts s m,
  length (s_validators s) = n -> tal n L m -> Forall att_fits atts -> (forall a, a ∈ atts -> cp_root (ad_target (at_data a)) ∈ L) ->
  process_all64 rts (s, m) atts = process_all rts (s, m) atts /\
  forall s' m', process_all rts (s, m) atts = Ok (s', m') -> length (s_validators s') = n /\ tal n L m'.
Proof.
  intros Hl. induction atts as [|a atts IH]; intros s m Hn Hm Hf HL.
  - split; [done|]. by intros s' m' [= <- <-].
  - apply Forall_cons in Hf as [Ha Hf]. cbn [process_all64 process_all]. rewrite (process_one_same n L) by done.
    destruct (process_one rts (s, m) a) as [[s1 m1]|e|] eqn:H1; [|done|done]. cbn [rbind].
    destruct (process_one_keeps n L _ _ _ _ _ _ Hn Hm (HL a (elem_of_list_here _ _)) H1) as [Hn1 Hm1].
    apply IH; [done|done|done|]. intros x Hx. apply HL. by right.
Qed.
Lemma serialize_same n L s m : length (s_validators s) = n -> tal n L m -> lenN L * N.of_nat n < two64 ->
  serialize_justifications64 s m = serialize_justifications s m.
Proof.
  intros Hn Hm HL. unfold serialize_justifications64, serialize_justifications.
  assert (lenN (merge_sort N.le (map fst (map_to_list m))) <= lenN L) as Hs.
  { unfold lenN. rewrite (Permutation_length (merge_sort_Permutation N.le _)).
    assert (map fst (map_to_list m) ⊆+ L) as H.
    { apply NoDup_submseteq; [apply NoDup_fst_map_to_list|]. intros r Hr. apply elem_of_list_fmap in Hr as ((x & v) & -> & Hx).
      apply elem_of_map_to_list in Hx. by apply (Hm x v). }
    apply submseteq_length in H. lia. }
  rewrite cmul_ok; [reflexivity|]. assert (lenN (s_validators s) = N.of_nat n) as -> by (unfold lenN; by rewrite Hn).
  eapply N.le_lt_trans; [|exact HL]. apply N.mul_le_mono_r. done.
Qed.

(** What the SSZ limits and the width of the fields give of any state. *)
Definition within (s : State) : Prop :=
  lenN (s_validators s) <= VALIDATOR_REGISTRY_LIMIT /\ lenN (s_hist s) <= HISTORICAL_ROOTS_LIMIT /\
  lenN (s_jroots s) <= HISTORICAL_ROOTS_LIMIT /\ cp_slot (s_finalized s) + 1 < two64.

Lemma process_attestations_same s atts : within s -> atts_fit atts -> process_attestations64 s atts = process_attestations s atts.
Proof.
  intros (Hv & _ & Hj & Hf) [Hl Ha]. unfold process_attestations64, process_attestations.
  destruct (_ <? _); [done|]. destruct (_ =? 0); [done|].
  change (N.of_nat (length (s_validators s))) with (lenN (s_validators s)).
  change VALIDATOR_REGISTRY_LIMIT with 4096 in Hv. change HISTORICAL_ROOTS_LIMIT with 262144 in Hj.
  assert (lenN (s_jroots s) * lenN (s_validators s) <= 262144 * 4096) as Hp by (by apply N.mul_le_mono).
  rewrite cmul_ok by (unfold two64; lia). cbn [rbind].
  destruct (negb _); [done|]. destruct (existsb _ _); [done|]. rewrite root_to_slot_same by done. cbn [rbind].
  set (L := s_jroots s ++ map (fun a => cp_root (ad_target (at_data a))) atts).
  set (m0 := unpack_tallies _ _ _ _).
  assert (tal (length (s_validators s)) L m0) as Hm0.
  { apply tal_unpack; [|done]. intros r Hr. apply elem_of_app. by left. }
  destruct (process_all_same (length (s_validators s)) L (root_to_slot (s_hist s) (cp_slot (s_finalized s))) Hv atts s m0) as [-> Hk];
    [done|done|done|..].
  { intros a Hin. apply elem_of_app. right. apply elem_of_list_fmap. by exists a. }
  destruct (process_all _ _ _) as [[s' m']|e|]; [|done|done]. cbn [rbind fst snd].
  destruct (Hk s' m' eq_refl) as [Hn' Hm']. apply (serialize_same (length (s_validators s)) L); [done|done|].
  assert (lenN L = lenN (s_jroots s) + lenN atts) as ->. { unfold L, lenN. rewrite app_length, map_length. lia. }
  change (N.of_nat (length (s_validators s))) with (lenN (s_validators s)).
  eapply N.le_lt_trans; [apply N.mul_le_mono; [|exact Hv]; apply N.add_le_mono; [exact Hj|apply N.lt_le_incl; exact Hl]|].
  reflexivity.
Qed.

Section Same.
  Context (hash_state : State -> H256) (hash_header : Header -> H256) (hash_body : list AggAtt -> H256).
  Notation slots64 := (process_slots64 hash_state).
  Notation header64 := (process_block_header64 hash_header hash_body).
  Notation transition64 := (state_transition64 hash_state hash_header hash_body).
  Notation transition := (state_transition hash_state hash_header hash_body).

  Lemma slots_same s t : slots64 s t = process_slots hash_state s t.
  Proof. unfold process_slots64, process_slots. destruct (N.leb_spec t (s_slot s)); [done|]. rewrite csub_ok by lia. reflexivity. Qed.
  Lemma header_same s b : b_slot b < two64 -> lenN (s_hist s) + (b_slot b - h_slot (s_header s)) < two64 ->
    header64 s b = process_block_header hash_header hash_body s b.
  Proof.
    intros Hb Hh. unfold process_block_header64, process_block_header. destruct (negb _); [done|].
    destruct (N.leb_spec (b_slot b) (h_slot (s_header s))); [done|].
    destruct (current_proposer _ _); [|done]. destruct (negb _); [done|]. destruct (negb _); [done|].
    rewrite csub_ok by lia. cbn [rbind]. rewrite csub_ok by lia. cbn [rbind]. rewrite cadd_ok by lia. cbn [rbind].
    rewrite cadd_ok by lia. cbn [rbind]. destruct (_ <? _); [done|]. rewrite csub_ok by lia. cbn [rbind].
    rewrite extend_same by lia. reflexivity.
  Qed.
  Lemma header_within s b s2 : within s -> process_block_header hash_header hash_body s b = Ok s2 -> within s2.
  Proof.
    intros (Hv & Hh & Hj & Hf). unfold process_block_header. destruct (negb _); [done|]. destruct (_ <=? _); [done|].
    destruct (current_proposer _ _); [|done]. destruct (negb _); [done|]. destruct (negb _); [done|].
    destruct (N.ltb_spec HISTORICAL_ROOTS_LIMIT (lenN (s_hist s) + 1 + (b_slot b - h_slot (s_header s) - 1))) as [|Hlim]; [done|].
    destruct (extend_to_slot _ _ _) as [js|e|]; [|done|done]. cbn [rbind]. intros [= <-].
    split; [|split; [|split]].
    - by destruct (_ =? 0).
    - cbn. unfold lenN in *. rewrite app_length. cbn [length]. rewrite replicate_length. lia.
    - by destruct (_ =? 0).
    - by destruct (_ =? 0).
  Qed.
  Lemma transition_same s b : within s -> atts_fit (b_atts b) -> b_slot b < two64 ->
    lenN (s_hist s) + (b_slot b - h_slot (s_header s)) < two64 -> transition64 s b = transition s b.
  Proof.
    intros Hw Ha Hb Hh. unfold state_transition64, state_transition. rewrite slots_same.
    destruct (process_slots hash_state s (b_slot b)) as [s1|e|] eqn:H1; [|done|done]. cbn [rbind].
    assert (within s1 /\ s_hist s1 = s_hist s /\ h_slot (s_header s1) = h_slot (s_header s)) as (Hw1 & Hh1 & Hs1).
    { unfold process_slots in H1. destruct (_ <=? _); [done|]. injection H1 as <-. destruct (_ =? ZERO); by repeat split; try apply Hw. }
    unfold process_block64, process_block. rewrite header_same by (rewrite ?Hh1, ?Hs1; done).
    destruct (process_block_header hash_header hash_body s1 b) as [s2|e|] eqn:H2; [|done|done]. cbn [rbind].
    rewrite process_attestations_same; [done| |done]. exact (header_within _ _ _ Hw1 H2).
  Qed.
  Lemma transition_chain_same gt vals s bs b : lenN vals <= VALIDATOR_REGISTRY_LIMIT ->
    chain hash_state hash_header hash_body gt vals s bs -> b_slot b < two64 -> atts_fit (b_atts b) -> transition64 s b = transition s b.
  Proof.
    intros Hv Hc Hb Ha. pose proof (chain_has_facts hash_state hash_header hash_body gt vals s bs Hc) as F.
    apply transition_same; [|done|done|].
    - split; [by rewrite (cf_vals _ _ _ _ _ _ _ F)|]. split; [apply (cf_limit _ _ _ _ _ _ _ F)|].
      destruct (cf_case _ _ _ _ _ _ _ F) as [[_ ->]|(_ & _ & HI & HC)].
      + split; [by vm_compute|]. by vm_compute.
      + pose proof (cf_limit _ _ _ _ _ _ _ F) as Hlim. pose proof (li_fj _ _ _ HI) as H1. pose proof (li_jl _ _ _ HI) as H2.
        unfold Fs, Js in *. change HISTORICAL_ROOTS_LIMIT with 262144 in *. split; [|unfold two64; lia].
        assert (s_jroots s ⊆+ s_hist s) as Hsub.
        { apply NoDup_submseteq; [apply StronglySorted_lt_NoDup, HC|].
          intros r Hr. apply (canonical_tallies_keys s r HC) in Hr as [vs Hr].
          destruct (li_m _ _ _ HI _ _ Hr) as (_ & _ & (t & _ & Ht) & _). apply elem_of_list_lookup. eauto. }
        apply submseteq_length in Hsub. unfold lenN in *. lia.
    - pose proof (cf_limit _ _ _ _ _ _ _ F) as Hlim. rewrite (cf_len _ _ _ _ _ _ _ F) in *.
      change HISTORICAL_ROOTS_LIMIT with 262144 in *. unfold two64 in *. lia.
  Qed.
End Same.

(** ** The clock and the gates *)
Lemma due_bound gt ts : ts < two64 -> (ts - gt * 1000) / 800 <= two64 / 800.
Proof. intros H. apply N.div_le_mono; lia. Qed.
Lemma tick_times_pf gt ts time : gt * 1000 < two64 ->
  tick_times64 gt ts time = Ok ((ts - gt * 1000) / 800, if 5 <? (ts - gt * 1000) / 800 - time then (ts - gt * 1000) / 800 - 5 else time).
Proof.
  intros H. unfold tick_times64, MILLISECONDS_PER_INTERVAL, INTERVALS_PER_SLOT. rewrite cmul_ok by done. cbn [rbind].
  destruct (N.ltb_spec 5 ((ts - gt * 1000) / 800 - time)); [|done]. rewrite csub_ok by lia. reflexivity.
Qed.
Lemma wall_slot_pf gt ts : gt * 1000 < two64 -> wall_slot64 gt ts = Ok ((ts - gt * 1000) / 4000).
Proof. intros H. unfold wall_slot64. by rewrite cmul_ok. Qed.
Lemma slot_start_pf gt ts slot : gt * 1000 < two64 -> ts < two64 -> slot <= (ts - gt * 1000) / 4000 ->
  slot_start64 gt slot = Ok (gt * 1000 + slot * 4000).
Proof.
  intros H Ht Hs. assert (slot * 4000 <= ts - gt * 1000) as Hm.
  { pose proof (N.mul_div_le (ts - gt * 1000) 4000). lia. }
  unfold slot_start64, MILLISECONDS_PER_SLOT. rewrite cmul_ok by done. cbn [rbind]. rewrite cmul_ok by lia. cbn [rbind]. apply cadd_ok. lia.
Qed.
Lemma too_early_pf time slot : time <= two64 / 800 -> too_early64 time slot = Ok (time + 1 <? 5 * slot).
Proof.
  intros H. change (two64 / 800) with 23058430092136939 in H. unfold too_early64, GOSSIP_DISPARITY_INTERVALS, INTERVALS_PER_SLOT, saturating_mul.
  rewrite cadd_ok by (unfold two64; lia). cbn [rbind]. f_equal. rewrite (N.mul_comm slot 5). apply eq_true_iff_eq. rewrite !N.ltb_lt. unfold two64. lia.
Qed.
Lemma beyond_horizon_pf time slot : time <= two64 / 800 -> beyond_horizon64 time slot = Ok (time / 5 + 1 <? slot).
Proof.
  intros H. change (two64 / 800) with 23058430092136939 in H. unfold beyond_horizon64, INTERVALS_PER_SLOT.
  assert (time / 5 <= time) by (apply N.div_le_upper_bound; lia). rewrite cadd_ok by (unfold two64; lia). reflexivity.
Qed.

Lemma fits_check b : (b_slot b <? two64) && (lenN (b_atts b) <? 2 ^ 32) &&
  forallb (fun a => cp_slot (ad_target (at_data a)) <? two64) (b_atts b) = true -> block_fits b.
Proof.
  intros [[H1 H2]%andb_true_iff H3]%andb_true_iff. apply N.ltb_lt in H1, H2. split; [done|]. split; [done|].
  apply Forall_forall. intros a Ha. rewrite forallb_forall in H3. apply N.ltb_lt, H3. by apply elem_of_list_In.
Qed.
