(** Proofs of the start-up properties. *)
From Verif Require Export StartupSpec StorageMore NodeThms3 ActorAll.

Lemma verify_pairs_spec pos actual expected : length actual = length expected ->
  (verify_pairs pos actual expected = Ok tt <->
   forall i a e, actual !! i = Some a -> expected !! i = Some e ->
     v_index a = pos + N.of_nat i /\ v_att_key a = v_att_key e /\ v_prop_key a = v_prop_key e).
Proof.
  revert pos expected. induction actual as [|a actual IH]; intros pos [|e expected] Hlen; try done.
  cbn [verify_pairs]. injection Hlen as Hlen. specialize (IH (pos + 1) _ Hlen).
  destruct (N.eqb_spec (v_index a) pos) as [H1|H1]; cbn [negb].
  2:{ split; [done|]. intros H. destruct (H O a e eq_refl eq_refl). lia. }
  destruct (N.eqb_spec (v_att_key a) (v_att_key e)) as [H2|H2], (N.eqb_spec (v_prop_key a) (v_prop_key e)) as [H3|H3];
    cbn [negb orb]; try (split; [done|]; intros H; destruct (H O a e eq_refl eq_refl) as (? & ? & ?); done).
  rewrite IH. split; intros H.
  - intros [|i] x y; cbn; [intros [= <-] [= <-]; split_and!; [lia|done..]|].
    intros Hx Hy. destruct (H i x y Hx Hy) as (? & ? & ?). split_and!; [lia|done..].
  - intros i x y Hx Hy. destruct (H (S i) x y Hx Hy) as (? & ? & ?). split_and!; [lia|done..].
Qed.
Lemma verify_pairs_total pos actual expected : verify_pairs pos actual expected <> Panic.
Proof.
  revert pos expected. induction actual as [|a actual IH]; intros pos [|e expected]; cbn [verify_pairs]; try done.
  destruct (negb _); [done|]. destruct (_ || _); [done|]. apply IH.
Qed.
Lemma gc_lookup g i v : gc_validators g !! i = Some v <->
  exists a p, gc_entries g !! i = Some (a, p) /\ v = mkVal a p (N.of_nat i).
Proof.
  unfold gc_validators. rewrite list_lookup_imap. destruct (gc_entries g !! i) as [[a p]|]; cbn.
  - split; [intros [= <-]; eauto|]. intros (? & ? & [= <- <-] & ->). done.
  - split; [done|]. by intros (? & ? & ? & _).
Qed.
Lemma gc_len g : length (gc_validators g) = length (gc_entries g).
Proof. apply imap_length. Qed.

Lemma verify_genesis_total s gt vals : verify_state_genesis s gt vals <> Panic.
Proof. unfold verify_state_genesis. repeat (destruct (negb _); [done|]). apply verify_pairs_total. Qed.
Lemma verify_genesis_spec g s : verify_state_genesis s (gc_time g) (gc_validators g) = Ok tt <-> ours g s.
Proof.
  unfold verify_state_genesis, ours, lenN.
  destruct (N.eqb_spec (s_genesis_time s) (gc_time g)) as [Ht|Ht]; cbn [negb]; [|split; [done|by intros []]].
  destruct (N.eqb_spec (N.of_nat (length (s_validators s))) (N.of_nat (length (gc_validators g)))) as [Hl|Hl]; cbn [negb].
  2:{ split; [done|]. intros (_ & H & _). rewrite gc_len in Hl. congruence. }
  apply Nat2N.inj in Hl. rewrite (verify_pairs_spec _ _ _ Hl). rewrite gc_len in Hl. split.
  - intros H. split_and!; [done|done|]. intros i a p He.
    destruct (lookup_lt_is_Some_2 (s_validators s) i) as [v Hv].
    { rewrite Hl. by eapply lookup_lt_Some. }
    rewrite Hv. destruct (H i v (mkVal a p (N.of_nat i)) Hv) as (H1 & H2 & H3); [apply gc_lookup; eauto|].
    destruct v; cbn in *. rewrite N.add_0_l in H1. by subst.
  - intros (_ & _ & H) i v e Hv (a & p & He & ->)%gc_lookup. rewrite (H _ _ _ He) in Hv. injection Hv as <-. cbn. lia.
Qed.
(** The registry of an own state is the configured one. *)
Lemma ours_iff g s : ours g s <-> s_genesis_time s = gc_time g /\ s_validators s = gc_validators g.
Proof.
  unfold ours. split; intros (H1 & H2); (split; [done|]).
  - destruct H2 as [Hl H]. apply list_eq. intros i. destruct (gc_validators g !! i) as [v|] eqn:Hv.
    + apply gc_lookup in Hv as (a & p & He & ->). eauto.
    + apply lookup_ge_None in Hv. apply lookup_ge_None. by rewrite Hl, <- gc_len.
  - rewrite H2. split; [apply gc_len|]. intros i a p He. apply gc_lookup; eauto.
Qed.

Section Verify.
  Context (E : Env) (g : GenesisConfig).
  Notation verify s := (verify_checkpoint_state E s (gc_time g) (gc_validators g)).

  Lemma verify_total s : verify s <> Panic.
  Proof.
    unfold verify_checkpoint_state. destruct (_ =? 0); [done|]. destruct (_ =? 0); [done|].
    destruct (verify_state_genesis _ _ _) eqn:Hv; [|done|by apply verify_genesis_total in Hv].
    repeat (first [destruct (_ <? _); [done|] | destruct (_ && _); [done|]]); done.
  Qed.
  Lemma C50_accepts_iff_pf s : verify s = Ok tt <-> usable E g s.
  Proof.
    unfold verify_checkpoint_state, usable.
    destruct (N.eqb_spec (s_slot s) 0) as [H0|H0]; [split; [done|by intros []]|].
    destruct (N.eqb_spec (lenN (s_validators s)) 0) as [Hn|Hn].
    { split; [done|]. intros (_ & Hne & (_ & Hl & _) & _). destruct (gc_entries g); [done|].
      unfold lenN in Hn. rewrite Hl in Hn. cbn in Hn. lia. }
    destruct (verify_state_genesis s (gc_time g) (gc_validators g)) as [[]|m|] eqn:Hv.
    3: by apply verify_genesis_total in Hv.
    2:{ split; [done|]. intros (_ & _ & Ho & _). apply verify_genesis_spec in Ho. congruence. }
    apply verify_genesis_spec in Hv.
    assert (gc_entries g <> []) as Hne.
    { intros He. destruct Hv as (_ & Hl & _). rewrite He in Hl. unfold lenN in Hn. rewrite Hl in Hn. done. }
    destruct (N.ltb_spec (s_slot s) (cp_slot (s_finalized s))) as [H1|H1]; [split; [done|intros (_ & _ & _ & [])]; lia|].
    destruct (N.ltb_spec (cp_slot (s_justified s)) (cp_slot (s_finalized s))) as [H2|H2]; [split; [done|intros (_ & _ & _ & [])]; lia|].
    destruct (N.eqb_spec (cp_slot (s_justified s)) (cp_slot (s_finalized s))) as [H3|H3],
      (N.eqb_spec (cp_root (s_justified s)) (cp_root (s_finalized s))) as [H4|H4]; cbn [negb andb];
      try (split; [done|intros (_ & _ & _ & [])]; tauto).
    all: destruct (N.ltb_spec (s_slot s) (h_slot (s_header s))) as [H5|H5]; [split; [done|intros (_ & _ & _ & [])]; lia|].
    all: destruct (N.eqb_spec (h_slot (s_header s)) (cp_slot (s_finalized s))) as [H6|H6],
      (N.eqb_spec (e_header E (s_header s)) (cp_root (s_finalized s))) as [H7|H7]; cbn [negb andb];
      try (split; [done|intros (_ & _ & _ & [])]; tauto).
    all: destruct (N.eqb_spec (h_slot (s_header s)) (cp_slot (s_justified s))) as [H8|H8],
      (N.eqb_spec (e_header E (s_header s)) (cp_root (s_justified s))) as [H9|H9]; cbn [negb andb];
      try (split; [done|intros (_ & _ & _ & [])]; tauto).
    all: split; [intros _|done]; split_and!; try done; split; try done; try lia.
  Qed.

  Notation fetch x := (fetch_finalized_anchor E (gc_time g) (gc_validators g) x).
  Lemma consistent_iff s b : anchor_pair_is_consistent (e_state E) (e_body E) s b = true <->
    anchor_matches (e_state E) (e_body E) s b.
  Proof. apply pair_consistent_iff. Qed.
  Lemma fetch_total x : fetch x <> Panic.
  Proof.
    destruct x as [[s|] [sb|]]; unfold fetch_finalized_anchor; cbn [fst snd]; try done;
      pose proof (verify_total s); destruct (verify s); cbn [rbind]; try done. by destruct (anchor_pair_is_consistent _ _ _ _).
  Qed.
  Lemma fetch_ok x pair : fetch x = Ok pair <-> good_answer E g x pair.
  Proof.
    unfold good_answer. destruct x as [[s|] [sb|]], pair as [s' sb']; unfold fetch_finalized_anchor; cbn [fst snd];
      try (split; [|by intros ([= ] & _)]); try done.
    - pose proof (C50_accepts_iff_pf s) as Hv. destruct (verify s) as [[]|e|]; cbn [rbind].
      2,3: split; [done|]; intros ([= <- <-] & Hu & _); apply Hv in Hu; done.
      pose proof (consistent_iff s (sb_block sb)) as Hc.
      destruct (anchor_pair_is_consistent _ _ _ _).
      + split; [|by intros ([= <- <-] & _)]. intros [= <- <-]. split_and!; [done|by apply Hv|by apply Hc].
      + split; [done|]. intros ([= <- <-] & _ & Ha). by apply Hc in Ha.
    - destruct (verify s); cbn [rbind]; done.
  Qed.
  Lemma fetch_mispaired x : fetch x = Err CAnchorPairingMismatch <-> mispaired E g x.
  Proof.
    unfold mispaired. destruct x as [[s|] [sb|]]; unfold fetch_finalized_anchor; cbn [fst snd];
      try (split; [done|]; by intros (? & ? & [= ] & _)).
    - pose proof (C50_accepts_iff_pf s) as Hv. pose proof (consistent_iff s (sb_block sb)) as Hc. split.
      + destruct (verify s) as [[]|e|] eqn:Hr; cbn [rbind]; [| |done].
        * destruct (anchor_pair_is_consistent _ _ _ _); [done|]. intros _. exists s, sb. split_and!; [done|by apply Hv|].
          intros Ha. by apply Hc in Ha.
        * intros [= ->]. exfalso. revert Hr. unfold verify_checkpoint_state.
          destruct (_ =? 0); [done|]. destruct (_ =? 0); [done|].
          destruct (verify_state_genesis _ _ _); [|done|done].
          repeat (first [destruct (_ <? _); [done|] | destruct (_ && _); [done|]]); done.
      + intros (s' & sb' & [= <- <-] & Hu & Ha). apply Hv in Hu. rewrite Hu. cbn [rbind].
        destruct (anchor_pair_is_consistent _ _ _ _); [|done]. exfalso. by apply Ha, Hc.
    - split; [|by intros (? & ? & [= ] & _)]. intros H. exfalso. revert H.
      destruct (verify s) as [[]|e|] eqn:Hr; cbn [rbind]; [done| |done]. intros [= ->].
      revert Hr. unfold verify_checkpoint_state.
      destruct (_ =? 0); [done|]. destruct (_ =? 0); [done|].
      destruct (verify_state_genesis _ _ _); [|done|done].
      repeat (first [destruct (_ <? _); [done|] | destruct (_ && _); [done|]]); done.
  Qed.

  Notation tryl := (try_loop E (gc_time g) (gc_validators g)).
  Lemma try_loop_total answer a left : tryl answer a left <> Panic.
  Proof.
    revert a. induction left as [|left IH]; intros a; cbn [try_loop]; pose proof (fetch_total (answer a));
      destruct (fetch (answer a)) as [|[]|]; done.
  Qed.
  Lemma try_loop_ok answer a left pair : tryl answer a left = Ok pair <->
    exists k, (a <= k <= a + left)%nat /\ good_answer E g (answer k) pair /\
      forall j, (a <= j < k)%nat -> mispaired E g (answer j).
  Proof.
    revert a. induction left as [|left IH]; intros a; cbn [try_loop].
    all: pose proof (fetch_ok (answer a)) as Hok; pose proof (fetch_mispaired (answer a)) as Hm.
    all: assert (forall k, (a < k)%nat -> fetch (answer a) <> Err CAnchorPairingMismatch ->
      (forall j, (a <= j < k)%nat -> mispaired E g (answer j)) -> False) as Hstop
      by (intros k Hk Hn Hj; apply Hn, Hm, Hj; lia).
    all: destruct (fetch (answer a)) as [x|e|] eqn:Hf.
    all: try (by apply fetch_total in Hf).
    1,3: split; [intros [= ->]; exists a; split_and!; [lia|lia|by apply Hok|lia]|];
      intros (k & Hk & Hg & Hj); destruct (decide (k = a)) as [-> |Hne]; [by apply Hok in Hg|];
      exfalso; apply (Hstop k); [lia|done|done].
    - split; [by destruct e|]. intros (k & Hk & Hg & Hj). assert (k = a) as -> by lia. apply Hok in Hg. done.
    - assert (e = CAnchorPairingMismatch \/ e <> CAnchorPairingMismatch) as [-> | Hne] by (destruct e; auto).
      + rewrite IH. split; intros (k & Hk & Hg & Hj).
        * exists k. split_and!; [lia|lia|done|]. intros j Hj'. destruct (decide (j = a)) as [->|]; [by apply Hm|apply Hj; lia].
        * destruct (decide (k = a)) as [->|]; [apply Hok in Hg; done|].
          exists k. split_and!; [lia|lia|done|]. intros j Hj'. apply Hj. lia.
      + split; [by destruct e|]. intros (k & Hk & Hg & Hj). destruct (decide (k = a)) as [->|]; [apply Hok in Hg; done|].
        exfalso. apply (Hstop k); [lia| |done]. congruence.
  Qed.
  Lemma try_ok answer pair : try_checkpoint_url E (gc_time g) (gc_validators g) answer = Ok pair <-> yields E g answer pair.
  Proof.
    unfold try_checkpoint_url. rewrite try_loop_ok. change (MAX_ANCHOR_FETCH_ATTEMPTS - 1)%nat with 2%nat.
    split; intros (k & Hk & Hg & Hj); exists k; split_and!; try lia; try done; intros j ?; apply Hj; lia.
  Qed.
  Lemma try_fails answer : (exists e, try_checkpoint_url E (gc_time g) (gc_validators g) answer = Err e) <-> fails E g answer.
  Proof.
    pose proof (try_ok answer) as Hok. pose proof (try_loop_total answer 0 (MAX_ANCHOR_FETCH_ATTEMPTS - 1)) as Ht.
    fold (try_checkpoint_url E (gc_time g) (gc_validators g) answer) in Ht. unfold fails.
    destruct (try_checkpoint_url E (gc_time g) (gc_validators g) answer) as [x|e|]; [| |done].
    - split; [by intros [? ?]|]. intros H. exfalso. apply (H x). by apply Hok.
    - split; [|by eauto]. intros _ pair Hy. by apply Hok in Hy.
  Qed.

  Notation urll := (url_loop E (gc_time g) (gc_validators g)).
  Lemma url_loop_total answer p left le : urll answer p left le <> Panic.
  Proof.
    revert p le. induction left as [|left IH]; intros p le; cbn [url_loop]; [done|].
    pose proof (try_loop_total (answer p) 0 (MAX_ANCHOR_FETCH_ATTEMPTS - 1)) as Ht.
    fold (try_checkpoint_url E (gc_time g) (gc_validators g) (answer p)) in Ht.
    destruct (try_checkpoint_url _ _ _ _); [done|apply IH|done].
  Qed.
  Lemma url_loop_ok answer p left le pair : urll answer p left le = Ok pair <->
    exists q, (p <= q < p + left)%nat /\ yields E g (answer q) pair /\
      forall q', (p <= q' < q)%nat -> fails E g (answer q').
  Proof.
    revert p le. induction left as [|left IH]; intros p le; cbn [url_loop].
    { split; [done|]. intros (q & Hq & _). lia. }
    pose proof (try_ok (answer p)) as Hok. pose proof (try_fails (answer p)) as Hf.
    destruct (try_checkpoint_url E (gc_time g) (gc_validators g) (answer p)) as [x|e|] eqn:Hr.
    - split.
      + intros [= ->]. exists p. split_and!; [lia|lia|by apply Hok|lia].
      + intros (q & Hq & Hy & Hb). destruct (decide (q = p)) as [->|]; [by apply Hok|].
        exfalso. apply (Hb p ltac:(lia) x). by apply Hok.
    - rewrite IH. split; intros (q & Hq & Hy & Hb).
      + exists q. split_and!; [lia|lia|done|]. intros q' Hq'. destruct (decide (q' = p)) as [->|]; [apply Hf; eauto|apply Hb; lia].
      + destruct (decide (q = p)) as [->|]; [apply Hok in Hy; done|].
        exists q. split_and!; [lia|lia|done|]. intros q' ?. apply Hb. lia.
    - exfalso. by apply (try_loop_total (answer p) 0 (MAX_ANCHOR_FETCH_ATTEMPTS - 1)).
  Qed.
  Lemma url_loop_err answer p left le : (exists e, urll answer p left le = Err e) <->
    forall q, (p <= q < p + left)%nat -> fails E g (answer q).
  Proof.
    revert p le. induction left as [|left IH]; intros p le; cbn [url_loop].
    { split; [intros _ q ?; lia|]. eauto. }
    pose proof (try_ok (answer p)) as Hok. pose proof (try_fails (answer p)) as Hf.
    destruct (try_checkpoint_url E (gc_time g) (gc_validators g) (answer p)) as [x|e|] eqn:Hr.
    - split; [by intros [? ?]|]. intros H. exfalso. apply (H p ltac:(lia) x). by apply Hok.
    - rewrite IH. split; intros H q Hq.
      + destruct (decide (q = p)) as [->|]; [apply Hf; eauto|apply H; lia].
      + apply H. lia.
    - exfalso. by apply (try_loop_total (answer p) 0 (MAX_ANCHOR_FETCH_ATTEMPTS - 1)).
  Qed.

  Notation retryl := (retry_loop E (gc_time g) (gc_validators g)).
  Lemma retry_loop_total net urls r left : retryl net urls r left <> Panic.
  Proof.
    revert r. induction left as [|left IH]; intros r; cbn [retry_loop];
      pose proof (url_loop_total (net r) 0 urls None) as Ht; unfold fetch_anchor_block_and_state;
      destruct (url_loop _ _ _ _ _ _ _); done.
  Qed.
  Lemma retry_loop_ok net urls r left pair : retryl net urls r left = Ok pair <->
    exists q p, (r <= q <= r + left)%nat /\ (p < urls)%nat /\ yields E g (net q p) pair /\
      (forall p', (p' < p)%nat -> fails E g (net q p')) /\
      (forall q' p', (r <= q' < q)%nat -> (p' < urls)%nat -> fails E g (net q' p')).
  Proof.
    revert r. induction left as [|left IH]; intros r; cbn [retry_loop].
    all: pose proof (url_loop_ok (net r) 0 urls None) as Hok; pose proof (url_loop_err (net r) 0 urls None) as Hf.
    all: unfold fetch_anchor_block_and_state; destruct (url_loop E (gc_time g) (gc_validators g) (net r) 0 urls None) as [x|e|] eqn:Hr;
      try (exfalso; by apply (url_loop_total (net r) 0 urls None)).
    1,3: split; [intros [= ->]; destruct (proj1 (Hok pair) eq_refl) as (p & Hp & Hy & Hb);
        exists r, p; split_and!; [lia|lia|lia|done|intros; apply Hb; lia|lia]|];
      intros (q & p & Hq & Hp & Hy & Hb & Hall);
      destruct (decide (q = r)) as [-> | ];
        [apply Hok; exists p; split_and!; [lia|lia|done|intros; apply Hb; lia]|];
      exfalso; destruct (proj1 (Hok x) eq_refl) as (p2 & Hp2 & Hy2 & _); apply (Hall r p2 ltac:(lia) ltac:(lia) x Hy2).
    - split; [done|]. intros (q & p & Hq & Hp & Hy & _). assert (q = r) as -> by lia.
      exfalso. apply (proj1 Hf ltac:(eauto) p ltac:(lia) pair Hy).
    - rewrite IH. split; intros (q & p & Hq & Hp & Hy & Hb & Hall).
      + exists q, p. split_and!; [lia|lia|done|done|done|]. intros q' p' Hq' Hp'.
        destruct (decide (q' = r)) as [->|]; [apply Hf; [eauto|lia]|apply Hall; lia].
      + destruct (decide (q = r)) as [->|]; [exfalso; apply (proj1 Hf ltac:(eauto) p ltac:(lia) pair Hy)|].
        exists q, p. split_and!; [lia|lia|done|done|done|]. intros q' p' ? ?. apply Hall; lia.
  Qed.
  Lemma retry_loop_err net urls r left : (exists e, retryl net urls r left = Err e) <->
    forall q p, (r <= q <= r + left)%nat -> (p < urls)%nat -> fails E g (net q p).
  Proof.
    revert r. induction left as [|left IH]; intros r; cbn [retry_loop].
    all: pose proof (url_loop_ok (net r) 0 urls None) as Hok; pose proof (url_loop_err (net r) 0 urls None) as Hf.
    all: unfold fetch_anchor_block_and_state; destruct (url_loop E (gc_time g) (gc_validators g) (net r) 0 urls None) as [x|e|] eqn:Hr;
      try (exfalso; by apply (url_loop_total (net r) 0 urls None)).
    1,3: split; [by intros [? ?]|]; intros H; exfalso; destruct (proj1 (Hok x) eq_refl) as (p & Hp & Hy & _);
      apply (H r p ltac:(lia) ltac:(lia) x Hy).
    - split; [|by eauto]. intros _ q p Hq Hp. assert (q = r) as -> by lia. apply Hf; [eauto|lia].
    - rewrite IH. split; intros H q p Hq Hp.
      + destruct (decide (q = r)) as [->|]; [apply Hf; [eauto|lia]|apply H; lia].
      + apply H; lia.
  Qed.
  Lemma C51_urls_ok_pf net urls pair :
    fetch_anchor_with_retry E (gc_time g) (gc_validators g) net urls = Ok pair <-> first_yield E g urls net pair.
  Proof.
    unfold fetch_anchor_with_retry. rewrite retry_loop_ok. change (MAX_CHECKPOINT_ATTEMPTS - 1)%nat with 4%nat.
    split; intros (q & p & Hq & Hp & Hy & Hb & Hall); exists q, p; split_and!; try lia; try done; intros; apply Hall; lia.
  Qed.
  Lemma C51_urls_err_pf net urls :
    (exists e, fetch_anchor_with_retry E (gc_time g) (gc_validators g) net urls = Err e) <-> no_yield E g urls net.
  Proof.
    unfold fetch_anchor_with_retry. rewrite retry_loop_err. change (MAX_CHECKPOINT_ATTEMPTS - 1)%nat with 4%nat.
    split; intros H q p Hq Hp; apply H; lia.
  Qed.
End Verify.
