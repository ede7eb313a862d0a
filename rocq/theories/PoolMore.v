From Verif Require Export PoolProofs KeysProofs.
Lemma C20_keys_order_pf slot root slot' root' :
  slot < 2 ^ 64 -> slot' < 2 ^ 64 -> root < 2 ^ 256 -> root' < 2 ^ 256 ->
  (lex_lt (encode_slot_root_key slot root) (encode_slot_root_key slot' root') <->
   slot < slot' \/ (slot = slot' /\ root < root')) /\
  (encode_slot_root_key slot root = encode_slot_root_key slot' root' <-> slot = slot' /\ root = root').
Proof.
  intros H1 H2 H3 H4. split; [by apply key_lex|]. split; [|by intros [-> ->]].
  intros Heq. pose proof (key_decode slot root H1 H3) as Hd. rewrite Heq, key_decode in Hd by done.
  by injection Hd as -> ->.
Qed.

Lemma C20_bare_key_pf slot root slot' :
  slot < 2 ^ 64 -> slot' < 2 ^ 64 ->
  (lex_lt (encode_slot_root_key slot root) (encode_block_root_key slot') <-> slot < slot') /\
  (lex_lt (encode_block_root_key slot) (encode_block_root_key slot') <-> slot < slot').
Proof.
  intros H1 H2. split; [by apply bare_lex|]. by apply (lex_to_be 8).
Qed.

Lemma C25_runs_pf ad_hash cap ops :
  exists bs b, pool_run ad_hash (buf_new cap) ops bs b.
Proof.
  destruct (pool_run_total ad_hash (buf_new cap) ops) as (bs & b & H); [apply pool_new_ok|]. eauto.
Qed.

Lemma C25_bounded_pf ad_hash cap ops bs b :
  pool_run ad_hash (buf_new cap) ops bs b ->
  bf_total b = lenN (stored_proofs b) /\
  lenN (stored_proofs b) <= cap /\
  NoDup (bf_order b) /\
  (forall r, r ∈ bf_order b <-> proofs_of b r <> []) /\
  (forall r i j p q, proofs_of b r !! i = Some p -> proofs_of b r !! j = Some q -> i <> j ->
                     ~ covered (pr_bits p) (pr_bits q)).
Proof.
  intros Hr. destruct (pool_run_ok ad_hash _ _ _ _ (pool_new_ok ad_hash cap) Hr) as ([[H1 H2 H3 H4] _ H5 H6] & Hc & _).
  cbn in Hc. rewrite Hc in H4.
  assert (bf_total b = lenN (stored_proofs b)) as Ht.
  { rewrite H3. apply (size_sum_concat pe_size pe_proofs). done. }
  split; [done|]. split; [lia|]. split; [done|]. split.
  - intros r. rewrite H2. unfold proofs_of. split.
    + intros [e He]. rewrite He. eauto.
    + destruct (bf_data b !! r); [eauto|done].
  - intros r. unfold proofs_of. destruct (bf_data b !! r) as [e|] eqn:He; [|intros i j p q Hi; by rewrite lookup_nil in Hi].
    apply (H6 r e He).
Qed.

Lemma C25_covered_pf ad_hash cap ops1 ops2 bs1 bs2 b1 b2 b d p :
  pool_run ad_hash (buf_new cap) ops1 bs1 b1 ->
  pool_step ad_hash b1 (Push d p) = Ok b2 ->
  pool_run ad_hash b2 ops2 bs2 b ->
  Forall (fun b' => proofs_of b' (ad_hash d) <> []) (b2 :: bs2) ->
  exists q, q ∈ proofs_of b (ad_hash d) /\ covered (pr_bits p) (pr_bits q).
Proof.
  intros H1 H2 H3 Hf.
  destruct (pool_run_ok ad_hash _ _ _ _ (pool_new_ok ad_hash cap) H1) as (Hb1 & _).
  destruct (pool_step_ok ad_hash b1 (Push d p) Hb1) as (b2' & E & Hb2 & _). rewrite H2 in E. injection E as <-.
  assert (Forall (fun b' => is_Some (bf_data b' !! ad_hash d)) (b2 :: bs2)) as Hf'.
  { eapply Forall_impl; [exact Hf|]. intros x Hx. unfold proofs_of in Hx. cbn beta in Hx.
    destruct (bf_data x !! ad_hash d); [eauto|done]. }
  apply Forall_cons in Hf' as [Hf1 Hf2].
  apply (run_covers ad_hash b2 ops2 bs2 b (ad_hash d) p Hb2 H3 Hf2).
  by apply (push_covers ad_hash b1 d p b2).
Qed.

Lemma C25_push_pf ad_hash cap ops bs b d p b' :
  pool_run ad_hash (buf_new cap) ops bs b ->
  pool_step ad_hash b (Push d p) = Ok b' ->
  (b' = b /\ exists q, q ∈ proofs_of b (ad_hash d) /\ covered (pr_bits p) (pr_bits q)) \/
  (forall q, q ∈ proofs_of b (ad_hash d) -> ~ covered (pr_bits p) (pr_bits q)) /\
  exists k e,
    let queue := if decide (ad_hash d ∈ bf_order b) then bf_order b else bf_order b ++ [ad_hash d] in
    let data := <[ad_hash d := e]> (bf_data b) in
    bf_order b' = drop k queue /\
    bf_data b' = without (take k queue) data /\
    (forall j, (j < k)%nat ->
       cap < lenN (stored_proofs (mkBuf (without (take j queue) data) [] cap 0))) /\
    pe_data e = default d (pe_data <$> bf_data b !! ad_hash d) /\
    (forall q, q ∈ pe_proofs e <->
       q = p \/ q ∈ proofs_of b (ad_hash d) /\ ~ covered (pr_bits q) (pr_bits p)).
Proof.
  intros Hr Hs. destruct (pool_run_ok ad_hash _ _ _ _ (pool_new_ok ad_hash cap) Hr) as (Hb & Hc & _). cbn in Hc.
  destruct (push_spec ad_hash b d p Hb) as (b1 & H1 & _ & _ & He). cbn in Hs. rewrite Hs in H1. injection H1 as <-.
  destruct He as [H|(Hn & k & e & _ & H1 & H2 & H3 & H4 & H5)]; [by left|right].
  split; [done|]. exists k, e. cbn zeta in *. split; [done|]. split; [done|]. split; [|done].
  intros j Hj. specialize (H3 j Hj). rewrite Hc in H3. unfold stored_proofs. cbn [bf_data].
  rewrite <- (size_sum_concat pe_size pe_proofs) by done. done.
Qed.

Lemma C25_drain_prune_pf ad_hash cap ops bs b fin :
  pool_run ad_hash (buf_new cap) ops bs b ->
  payload_drain b = (buf_new cap,
    concat (map (fun r => map (pair (default (mkAD 0 (mkCp 0 0) (mkCp 0 0) (mkCp 0 0)) (pe_data <$> bf_data b !! r)))
                              (proofs_of b r)) (bf_order b))) /\
  exists b' n, payload_prune fin b = Ok (b', n) /\
    (forall r e, bf_data b' !! r = Some e <-> bf_data b !! r = Some e /\ fin < cp_slot (ad_target (pe_data e))) /\
    sublist (bf_order b') (bf_order b).
Proof.
  intros Hr. destruct (pool_run_ok ad_hash _ _ _ _ (pool_new_ok ad_hash cap) Hr) as (Hb & Hc & _). cbn in Hc.
  split.
  - destruct (drain_pool_spec ad_hash b Hb) as [H1 H2]. rewrite (surjective_pairing (payload_drain b)), H1, H2, Hc. f_equal. f_equal.
    apply map_ext. intros r. unfold proofs_of. by destruct (bf_data b !! r).
  - destruct (prune_pool_spec ad_hash fin b Hb) as (b' & n & E & _ & _ & H1 & H2). eauto 6.
Qed.

Lemma C26_bounded_pf ad_hash cap ops b :
  sig_run ad_hash (buf_new cap) ops b ->
  bf_total b = lenN (stored_sigs b) /\
  lenN (stored_sigs b) <= cap /\
  NoDup (bf_order b) /\
  (forall r, r ∈ bf_order b <-> exists v s, sig_of b r v = Some s) /\
  (forall r v s, sig_of b r v = Some s -> last_inserted ad_hash ops r v None = Some s).
Proof.
  intros Hr. destruct (sig_run_ok ad_hash _ _ _ (sigs_new_ok ad_hash cap) Hr) as [[[H1 H2 H3 H4] H5 H6] Hc].
  cbn in Hc. rewrite Hc in H4.
  assert (bf_total b = lenN (stored_sigs b)) as Ht.
  { rewrite H3. apply (size_sum_concat ge_size (fun e => map_to_list (ge_sigs e))). done. }
  split; [done|]. split; [lia|]. split; [done|]. split.
  - intros r. rewrite H2. unfold sig_of. split.
    + intros [e He]. rewrite He. destruct (map_choose _ (H6 _ _ He)) as (v & s & Hs). eauto.
    + intros (v & s & Hs). destruct (bf_data b !! r); [eauto|done].
  - intros r v s. by apply (sig_run_last ad_hash cap).
Qed.

Lemma C26_insert_pf ad_hash cap ops b d v sig b' :
  sig_run ad_hash (buf_new cap) ops b ->
  sig_step ad_hash b (SInsert d v sig) = Ok b' ->
  exists k,
    let queue := if decide (ad_hash d ∈ bf_order b) then bf_order b else bf_order b ++ [ad_hash d] in
    bf_order b' = drop k queue /\
    (forall r w, sig_of b' r w =
       if decide (r ∈ take k queue) then None
       else if decide (r = ad_hash d /\ w = v) then Some sig else sig_of b r w) /\
    (forall j, (j < k)%nat -> exists b1 : Buf GossipEntry,
       cap < lenN (stored_sigs b1) /\
       forall r w, sig_of b1 r w =
         if decide (r ∈ take j queue) then None
         else if decide (r = ad_hash d /\ w = v) then Some sig else sig_of b r w).
Proof.
  intros Hr Hs. destruct (sig_run_ok ad_hash _ _ _ (sigs_new_ok ad_hash cap) Hr) as [Hb Hc]. cbn in Hc.
  destruct (insert_spec ad_hash b d v sig Hb) as (b1 & H1 & _ & _ & k & _ & H2 & H3 & H4).
  cbn in Hs. rewrite Hs in H1. injection H1 as <-. exists k. cbn zeta in *.
  set (queue := if decide (ad_hash d ∈ bf_order b) then bf_order b else bf_order b ++ [ad_hash d]) in *.
  set (e := mkGE (default d (ge_data <$> bf_data b !! ad_hash d)) (<[v := sig]> (default ∅ (ge_sigs <$> bf_data b !! ad_hash d)))) in *.
  assert (forall j (x : Buf GossipEntry), bf_data x = without (take j queue) (<[ad_hash d := e]> (bf_data b)) ->
    forall r w, sig_of x r w = if decide (r ∈ take j queue) then None
       else if decide (r = ad_hash d /\ w = v) then Some sig else sig_of b r w) as Hx.
  { intros j x Hx r w. unfold sig_of at 1. rewrite Hx, without_lookup. destruct (decide (r ∈ take j queue)); [done|].
    destruct (decide (r = ad_hash d)) as [->|Hne].
    - rewrite lookup_insert. cbn [e ge_sigs]. destruct (decide (w = v)) as [->|Hw].
      + rewrite lookup_insert, decide_True by done. done.
      + rewrite lookup_insert_ne, decide_False by naive_solver. unfold sig_of.
        by destruct (bf_data b !! ad_hash d); [|apply lookup_empty].
    - rewrite lookup_insert_ne, decide_False by naive_solver. done. }
  split; [done|]. split; [exact (Hx k b' H3)|].
  intros j Hj. exists (mkBuf (without (take j queue) (<[ad_hash d := e]> (bf_data b))) [] cap 0).
  split; [|apply Hx; done].
  specialize (H4 j Hj). rewrite Hc in H4. unfold stored_sigs. cbn [bf_data].
  rewrite <- (size_sum_concat ge_size (fun e => map_to_list (ge_sigs e))) by done. done.
Qed.

Lemma C26_delete_prune_pf ad_hash cap ops b keys fin :
  sig_run ad_hash (buf_new cap) ops b ->
  (exists b', gossip_delete b keys = Ok b' /\
     forall r v, sig_of b' r v = if decide ((v, r) ∈ keys) then None else sig_of b r v) /\
  (exists b' n, gossip_prune fin b = Ok (b', n) /\
     forall r e, bf_data b' !! r = Some e <-> bf_data b !! r = Some e /\ fin < ad_slot (ge_data e)).
Proof.
  intros Hr. destruct (sig_run_ok ad_hash _ _ _ (sigs_new_ok ad_hash cap) Hr) as [Hb Hc].
  split.
  - destruct (delete_spec ad_hash b keys Hb) as (b' & E & _ & _ & H). exists b'. split; [done|].
    intros r v. rewrite H. case_bool_decide; [rewrite decide_True by done|rewrite decide_False by done]; done.
  - destruct (prune_sigs_spec ad_hash fin b Hb) as (b' & n & E & _ & _ & H). eauto.
Qed.
