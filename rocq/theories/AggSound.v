(** Aggregates made by the node itself verify; choice of votes to recover from a
    block (C39, C53). *)
From Verif Require Export AggNode.
From stdpp Require Import sorting.
Local Open Scope N_scope.

Lemma keys_of_usable E vals bits :
  (forall v, bits !! N.to_nat v = Some true -> exists k, has_key E vals v k) ->
  Forall (fun k => e_key_ok E k = true) (keys_of vals bits) /\
  omap (usable_key E vals) (validator_indices bits) = keys_of vals bits.
Proof.
  intros H.
  assert (forall v, v ∈ validator_indices bits -> exists k, has_key E vals v k) as Hv.
  { intros v Hin. apply H. by apply validator_indices_spec. }
  split; [|by apply usable_keys].
  apply Forall_forall. intros k Hk. unfold keys_of in Hk. apply elem_of_list_omap in Hk as (v & Hin & Hkv).
  destruct (Hv v Hin) as (k' & x & Hx & Hxk & Hok). rewrite Hx in Hkv. cbn in Hkv. congruence.
Qed.
Lemma usable_all E vals (l : list N) :
  length (omap (usable_key E vals) l) = length l -> forall v, v ∈ l -> exists k, has_key E vals v k.
Proof.
  assert (forall l : list N, (length (omap (usable_key E vals) l) <= length l)%nat) as Hle.
  { intros l0. induction l0 as [|i l0 IH]; cbn; [done|]. destruct (usable_key E vals i); cbn; lia. }
  induction l as [|i l IH]; intros Hl v Hv; [by inversion Hv|]. cbn in Hl.
  destruct (usable_key E vals i) as [k|] eqn:Hk; cbn in Hl.
  - apply elem_of_cons in Hv as [->|Hv]; [exists k; by apply usable_spec|]. apply IH; [lia|done].
  - specialize (Hle l). lia.
Qed.

Section Sound.
  Context (E : Env) (P : Prover) (P2 : Prover2) (gt : N) (vals : list Validator).
  Context (Hgood : good_hash (e_header E)) (Hvals : lenN vals <= VALIDATOR_REGISTRY_LIMIT) (Hinj : inj_data E).
  Context (Hpr : sound_prover E P P2).
  Notation node_inv := (node_inv E gt vals).
  Notation sound_node := (sound_node E vals).
  Notation sound_sigs := (sound_sigs E vals).

  Lemma pool_sound b d p :
    pool_ok (e_data E) b -> sound_buf E vals b -> p ∈ proofs_for_root b (e_data E d) -> sound_proof E vals d p.
  Proof.
    intros Hb Hs Hp. unfold proofs_for_root in Hp. destruct (bf_data b !! e_data E d) as [e|] eqn:He; [|by inversion Hp].
    pose proof (po_key _ _ Hb _ _ He) as Hk. apply Hinj in Hk. rewrite <- Hk. by eapply Hs.
  Qed.
  Lemma node_sound n d p :
    mem_inv E n -> sound_node n -> p ∈ proofs_for_root (nd_new n) (e_data E d) ++ proofs_for_root (nd_known n) (e_data E d) ->
    sound_proof E vals d p.
  Proof.
    intros (H1 & H2 & _) [S1 S2] Hp. apply elem_of_app in Hp as [Hp|Hp]; [exact (pool_sound _ _ _ H1 S1 Hp)|exact (pool_sound _ _ _ H2 S2 Hp)].
  Qed.

  (** *** Results of jobs *)
  Lemma job_sound n j d p ps del :
    mem_inv E n -> sound_node n -> sound_sigs n -> candidate_of E n vals (e_data E (jb_data j), j) ->
    aggregate_job E P2 j = Ok (Some (d, p, ps, del)) -> sound_proof E vals d p.
  Proof.
    intros Hm Hs Hsig (sigs & Hj & _ & Hsg) Hag. cbn [fst snd] in *.
    apply C39_output_pf in Hag as (-> & -> & _ & Hps & Htp & Hsl & Hmix).
    set (d := jb_data j) in *.
    assert (forall v s, (v, s) ∈ sigs -> valid_sig E vals d v s) as Hval.
    { intros v s Hin. destruct Hsg as [Hsg| ->]; [|by inversion Hin]. apply Hsig. by apply Hsg. }
    destruct (gj_children _ _ _ _ _ _ Hj) as (l & Hl & Hch & Hids).
    destruct (gj_lens _ _ _ _ _ _ Hj) as [L1 L2].
    assert (forall q, q ∈ l -> sound_proof E vals d q) as Hlq.
    { intros q Hq. destruct (Hl q Hq) as [Hq' _]. by eapply node_sound. }
    assert (forall v, v ∈ jb_raw_ids j -> exists k, has_key E vals v k) as Hrk.
    { intros v Hv. apply elem_of_list_lookup in Hv as [i Hi]. destruct (gj_raw _ _ _ _ _ _ Hj _ _ Hi) as (k & s & _ & _ & _ & Hk). by exists k. }
    assert (forall v, takes_part v p -> exists k, has_key E vals v k) as Hkey.
    { intros v Hv. apply Htp, Hps in Hv as [Hv|Hv]; [by apply Hrk|]. apply Hids in Hv as (q & Hq & Hv). by apply (proj2 (Hl q Hq)). }
    set (raw := zip_with (fun vk s => (vk.1, vk.2, s)) (zip (jb_raw_ids j) (jb_raw_keys j)) (jb_raw_sigs j)).
    assert (map (fun x : N * N * N => x.1.1) raw = jb_raw_ids j /\ map (fun x : N * N * N => x.1.2) raw = jb_raw_keys j /\ map snd raw = jb_raw_sigs j) as (Z1 & Z2 & Z3).
    { unfold raw. clear -L1 L2. revert L1 L2. generalize (jb_raw_ids j) (jb_raw_keys j) (jb_raw_sigs j).
      induction l as [|v l IH]; intros [|k l'] [|s l'']; try done. cbn. intros [= L1] [= L2].
      destruct (IH l' l'' L1 L2) as (-> & -> & ->). done. }
    assert (forall v k s, (v, k, s) ∈ raw -> v ∈ jb_raw_ids j /\ has_key E vals v k /\ e_sig_valid E k (ad_slot d) (e_data E d) s = true) as Hraw.
    { intros v k s Hin. apply elem_of_list_lookup in Hin as [i Hi]. unfold raw in Hi.
      apply lookup_zip_with_Some in Hi as ([v' k'] & s' & [= -> -> ->] & Hvk & Hs').
      apply lookup_zip_with_Some in Hvk as (v2 & k2 & [= -> ->] & Hv2 & Hk2).
      destruct (gj_raw _ _ _ _ _ _ Hj _ _ Hv2) as (k3 & s3 & Hk3 & Hs3 & Hin & Hk).
      assert (k3 = k2) as -> by congruence. assert (s3 = s') as -> by congruence.
      split; [by eapply elem_of_list_lookup_2|]. split; [done|]. destruct (Hval _ _ Hin) as (k4 & Hk4 & _ & Hv).
      destruct Hk as (x & Hx & <- & _). destruct Hk4 as (x' & Hx' & <- & _). by assert (x' = x) as -> by congruence. }
    split.
    - assert (exists v, v ∈ jb_raw_ids j \/ v ∈ jb_child_ids j) as [v Hv].
      { destruct (jb_raw_ids j) as [|v ids] eqn:Hr; [|exists v; left; left].
        pose proof (gj_enough _ _ _ _ _ _ Hj) as Hen. rewrite Hr, Hch, map_length in Hen. cbn in Hen.
        destruct l as [|q l0]; [cbn in Hen; lia|]. destruct (sp_some _ _ _ _ (Hlq q (elem_of_list_here _ _))) as [v Hv].
        exists v. right. apply Hids. exists q. split; [left|done]. }
      exists v. by apply Htp, Hps.
    - intros v Hv. destruct (Hkey v Hv) as (k & x & Hx & _). apply lookup_lt_Some in Hx. unfold lenN. lia.
    - by apply keys_of_usable.
    - done.
    - rewrite Hch in Hmix. rewrite <- Z2, <- Z3 in Hmix.
      eapply (s2_mixed _ _ _ Hpr vals l raw); [| | | | |exact Hmix].
      + intros q Hq. destruct (Hlq q Hq). done.
      + intros v k s Hin. by destruct (Hraw _ _ _ Hin) as (_ & ? & ?).
      + rewrite Z1. by apply (gj_once _ _ _ _ _ _ Hj).
      + intros v k s Hin Hc. destruct (Hraw _ _ _ Hin) as (Hv & _). apply (gj_apart _ _ _ _ _ _ Hj _ Hv). by apply Hids.
      + intros v. change (pr_bits p !! N.to_nat v = Some true) with (takes_part v p). rewrite Htp, Hps, Hids. split.
        * intros [Hv|Hv]; [|by left]. right. rewrite <- Z1 in Hv. apply elem_of_map in Hv as ([[v' k] s] & -> & Hin). by exists k, s.
        * intros [Hv|(k & s & Hin)]; [by right|]. left. by destruct (Hraw _ _ _ Hin) as (? & _).
  Qed.

  (** *** Candidates of a block *)
  Definition local_proofs (n : Node) (d : AttestationData) : list Proof_ :=
    proofs_for_root (nd_new n) (e_data E d) ++ proofs_for_root (nd_known n) (e_data E d).
  Lemma local_has n d v : covered_by (local_proofs n d) v <-> has_vote E n d v.
  Proof. clear Hgood Hvals Hinj Hpr gt vals P P2.
    unfold covered_by, local_proofs, has_vote, stored_proof, proofs_for_root. split.
    - intros (p & Hp & Hv). exists p. split; [|done]. apply elem_of_app in Hp as [Hp|Hp].
      + destruct (bf_data (nd_new n) !! e_data E d) as [e|] eqn:He; [|by inversion Hp]. exists e. split; [by left|done].
      + destruct (bf_data (nd_known n) !! e_data E d) as [e|] eqn:He; [|by inversion Hp]. exists e. split; [by right|done].
    - intros (p & (e & [-> | ->] & Hp) & Hv); exists p; (split; [|done]); apply elem_of_app; auto.
  Qed.
  Lemma counts_gset (X : gset N) (Q : N -> Prop) : (forall v, v ∈ X <-> Q v) -> counts (N.of_nat (size X)) Q.
  Proof. clear Hgood Hvals Hinj Hpr gt vals P P2.
    intros H. exists (elements X). split; [apply NoDup_elements|]. split; [|done].
    intros v. by rewrite elem_of_elements.
  Qed.
  Lemma counts_fun k k' Q : counts k Q -> counts k' Q -> k = k'.
  Proof. clear Hgood Hvals Hinj Hpr gt vals P P2.
    intros (l & N1 & H1 & <-) (l' & N2 & H2 & <-). unfold lenN. f_equal. apply Permutation_length.
    apply NoDup_Permutation; [done|done|]. intros x. by rewrite H1, H2.
  Qed.

  Lemma find_spec n atts i c :
    c ∈ find_candidates E n i atts <->
    exists j, ca_idx c = (i + j)%nat /\ atts !! j = Some (ca_att c) /\
      ca_local c = local_proofs n (at_data (ca_att c)) /\ useful E n atts j (ca_new c).
  Proof. clear Hgood Hvals Hinj Hpr gt vals P P2.
    revert i. induction atts as [|a atts IH]; intros i; cbn [find_candidates].
    { split; [by intros H; inversion H|]. intros (j & _ & H & _). by rewrite lookup_nil in H. }
    set (local := proofs_for_root _ _ ++ _). set (union := list_to_set (concat (map indices local)) : gset N).
    set (block := list_to_set (validator_indices (at_bits a)) : gset N).
    assert (forall v, v ∈ block ∖ union <-> unseen E n a v) as Hun.
    { intros v. unfold unseen. rewrite <- local_has. unfold block, union, votes_in.
      rewrite elem_of_difference, !elem_of_list_to_set, concat_indices, validator_indices_spec. done. }
    pose proof (counts_gset _ _ Hun) as Hcnt.
    assert (forall k, useful E n (a :: atts) 0 k <->
      (cp_slot (ad_target (at_data a)) <=? cp_slot (db_just (nd_db n))) = false /\ ~ block ⊆ union /\ k = N.of_nat (size (block ∖ union))) as Hu0.
    { intros k. unfold useful. cbn. split.
      - intros (a' & [= <-] & Hk & Hc & Hj). rewrite N.leb_gt. split; [done|].
        pose proof (counts_fun _ _ _ Hc Hcnt) as ->. split; [|done].
        intros Hsub. assert (block ∖ union ≡ ∅) as He by set_solver. apply size_empty_iff in He. lia.
      - rewrite N.leb_gt. intros (Hj & Hns & ->). exists a. split; [done|]. split; [|done].
        destruct (decide (size (block ∖ union) = 0%nat)) as [H0|H0]; [|lia]. apply size_empty_iff in H0. exfalso. apply Hns.
        intros v Hv. destruct (decide (v ∈ union)); [done|]. set_solver. }
    assert (c ∈ find_candidates E n (S i) atts <->
      exists j, (j <> 0)%nat /\ ca_idx c = (i + j)%nat /\ (a :: atts) !! j = Some (ca_att c) /\
        ca_local c = local_proofs n (at_data (ca_att c)) /\ useful E n (a :: atts) j (ca_new c)) as IH'.
    { rewrite IH. split.
      - intros (j & -> & H1 & H2 & H3). exists (S j). split_and!; [done|lia|done|done|exact H3].
      - intros ([|j] & Hj & -> & H1 & H2 & H3); [done|]. exists j. split_and!; [lia|done|done|exact H3]. }
    set (rest := find_candidates E n (S i) atts) in *.
    assert (c ∈ (if cp_slot (ad_target (at_data a)) <=? cp_slot (db_just (nd_db n)) then rest
        else if bool_decide (block ⊆ union) then rest
        else mkCand a i (N.of_nat (size (block ∖ union))) local :: rest) <->
      c ∈ rest \/ (useful E n (a :: atts) 0 (ca_new c) /\ c = mkCand a i (ca_new c) local)) as ->.
    { rewrite Hu0. destruct (_ <=? _); [naive_solver|]. case_bool_decide as Hb; [naive_solver|].
      rewrite elem_of_cons. split.
      - intros [->|H]; [right|by left]. cbn. done.
      - intros [H|((_ & _ & H) & H')]; [by right|left]. rewrite H', <- H. done. }
    rewrite IH'. split.
    - intros [(j & _ & H)|[H1 H2]]; [by exists j|]. exists 0%nat. rewrite H2 in *. cbn [ca_idx ca_att ca_new ca_local] in *.
      split_and!; [lia|done|done|done].
    - intros (j & H1 & H2 & H3 & H4). destruct j as [|j]; [|left; exists (S j); by split_and!].
      right. split; [done|]. destruct c as [ca ci cn cl]. cbn in *. injection H2 as ->. f_equal; [lia|exact H3].
  Qed.
  Lemma find_sorted n atts i : StronglySorted (fun x y => (ca_idx x < ca_idx y)%nat) (find_candidates E n i atts).
  Proof. clear Hgood Hvals Hinj Hpr gt vals P P2.
    revert i. induction atts as [|a atts IH]; intros i; cbn [find_candidates]; [constructor|].
    destruct (_ <=? _); [done|]. case_bool_decide; [done|]. constructor; [done|].
    apply Forall_forall. intros c Hc. apply find_spec in Hc as (j & -> & _). cbn. lia.
  Qed.

  Definition before (x y : Cand) : Prop := ca_new y < ca_new x \/ (ca_new y = ca_new x /\ (ca_idx x < ca_idx y)%nat).
  Lemma insert_perm c l : insert_cand c l ≡ₚ c :: l.
  Proof. clear Hgood Hvals Hinj Hpr gt vals P P2. induction l as [|x l IH]; cbn; [done|]. destruct (_ <=? _); [done|]. rewrite IH. constructor. Qed.
  Lemma sort_perm l : sort_cands l ≡ₚ l.
  Proof. clear Hgood Hvals Hinj Hpr gt vals P P2. induction l as [|x l IH]; cbn; [done|]. by rewrite insert_perm, IH. Qed.
  Lemma insert_sorted c l :
    (forall x, x ∈ l -> (ca_idx c < ca_idx x)%nat) -> StronglySorted before l -> StronglySorted before (insert_cand c l).
  Proof. clear Hgood Hvals Hinj Hpr gt vals P P2.
    induction l as [|x l IH]; intros Hc Hs; cbn; [by repeat constructor|].
    inversion Hs as [|? ? Hs' Hx]; subst. destruct (N.leb_spec (ca_new x) (ca_new c)) as [Hle|Hlt].
    - constructor; [done|]. apply Forall_forall. intros y Hy. pose proof (Hc y Hy) as Hi.
      assert (ca_new y <= ca_new x) as Hyx.
      { apply elem_of_cons in Hy as [->|Hy]; [lia|]. rewrite Forall_forall in Hx. destruct (Hx y Hy) as [?|[? _]]; lia. }
      unfold before. lia.
    - constructor; [apply IH; [|done]; intros y Hy; apply Hc; by right|].
      apply Forall_forall. intros y Hy. rewrite insert_perm in Hy. apply elem_of_cons in Hy as [->|Hy]; [by left|].
      rewrite Forall_forall in Hx. by apply Hx.
  Qed.
  Lemma sort_sorted l : StronglySorted (fun x y => (ca_idx x < ca_idx y)%nat) l -> StronglySorted before (sort_cands l).
  Proof. clear Hgood Hvals Hinj Hpr gt vals P P2.
    induction l as [|x l IH]; intros Hs; cbn; [constructor|]. inversion Hs as [|? ? Hs' Hx]; subst.
    apply insert_sorted; [|by apply IH]. intros y Hy. rewrite sort_perm in Hy. rewrite Forall_forall in Hx. by apply Hx.
  Qed.
  Lemma sorted_take {A} (R : A -> A -> Prop) k l : StronglySorted R l -> StronglySorted R (take k l).
  Proof. clear Hgood Hvals Hinj Hpr gt vals P P2.
    intros Hs. revert k. induction Hs as [|x l Hs IH Hx]; intros k; [rewrite take_nil; constructor|].
    destruct k; cbn; constructor; [apply IH|]. by apply Forall_take.
  Qed.

  Lemma sorted_split {A} (R : A -> A -> Prop) k l x y : StronglySorted R l -> x ∈ take k l -> y ∈ drop k l -> R x y.
  Proof. clear Hgood Hvals Hinj Hpr gt vals P P2.
    intros Hs. revert k. induction Hs as [|z l Hs IH Hx]; intros k H1 H2; [rewrite take_nil in H1; by inversion H1|].
    destruct k as [|k]; [by inversion H1|]. cbn in *. apply elem_of_cons in H1 as [->|H1]; [|by eapply IH].
    rewrite Forall_forall in Hx. apply Hx. eapply elem_of_submseteq; [exact H2|]. apply sublist_submseteq, sublist_drop.
  Qed.

  Lemma C53_choice_pf n atts :
    let l := select_candidates E n atts in
    best_four E n atts (map (fun c => (ca_idx c, ca_new c)) l) /\
    forall c, c ∈ l -> atts !! ca_idx c = Some (ca_att c) /\ ca_local c = local_proofs n (at_data (ca_att c)).
  Proof. clear Hgood Hvals Hinj Hpr gt vals P P2.
    intros l. unfold l, select_candidates, MAX_REAGGREGATIONS_PER_BLOCK. clear l.
    set (cs := find_candidates E n 0 atts). set (s := sort_cands cs).
    assert (StronglySorted before s) as Hs by (apply sort_sorted, find_sorted).
    assert (forall c, c ∈ s <-> c ∈ cs) as Hin by (intros c; unfold s; by rewrite sort_perm).
    assert (forall c, c ∈ take 4 s -> c ∈ s) as Htk.
    { intros c Hc. eapply elem_of_submseteq; [exact Hc|]. apply sublist_submseteq, sublist_take. }
    split; [split|].
    - rewrite map_length, take_length. lia.
    - intros i k Hik. apply elem_of_map in Hik as (c & [= -> ->] & Hc). apply Htk, Hin, find_spec in Hc as (j & -> & _ & _ & Hu). done.
    - pose proof (sorted_take _ 4 _ Hs) as Ht. clear -Ht. induction Ht as [|x t Ht IH Hx]; cbn; [constructor|]. constructor; [done|].
      apply Forall_map. eapply Forall_impl; [exact Hx|]. by intros y Hy.
    - intros i k Hu. pose proof Hu as (a & Ha & _).
      assert (mkCand a i k (local_proofs n (at_data a)) ∈ s) as Hc.
      { apply Hin, find_spec. exists i. cbn. split_and!; done. }
      rewrite <- (take_drop 4 s) in Hc. apply elem_of_app in Hc as [Hc|Hc].
      + left. apply elem_of_map. eexists. split; [|exact Hc]. done.
      + right. rewrite map_length, take_length. split.
        * assert (length (drop 4 s) <> 0)%nat by (intros H0; apply nil_length_inv in H0; rewrite H0 in Hc; by inversion Hc).
          rewrite drop_length in *. lia.
        * intros x Hx. apply elem_of_map in Hx as (c & -> & Hcx). exact (sorted_split _ _ _ _ _ Hs Hcx Hc).
    - intros c Hc. apply Htk, Hin, find_spec in Hc as (j & -> & H1 & H2 & _). done.
  Qed.

  (** *** What is recovered *)
  Lemma component_spec atts ks :
    component_keys E vals atts = Some ks ->
    Forall2 (fun a k => k = keys_of vals (at_bits a) /\ forall v, votes_in v a -> exists x, has_key E vals v x) atts ks.
  Proof.
    revert ks. induction atts as [|a atts IH]; intros ks H; cbn [component_keys] in H; [injection H as <-; constructor|].
    destruct (Nat.eqb_spec (length (omap (usable_key E vals) (validator_indices (at_bits a)))) (length (validator_indices (at_bits a)))) as [Hl|]; [|done].
    cbn [negb] in H. destruct (component_keys E vals atts) as [r|]; [|done]. injection H as <-. constructor; [|by apply IH].
    pose proof (usable_all _ _ _ Hl) as Hk.
    assert (forall v, votes_in v a -> exists x, has_key E vals v x) as Hv.
    { intros v Hv. apply Hk. by apply validator_indices_spec. }
    split; [|done]. by apply keys_of_usable.
  Qed.
  Lemma partial_spec l cs :
    partial_children E vals l = Some cs ->
    cs = map (fun p => (keys_of vals (pr_bits p), pr_bytes p)) l /\
    forall v, covered_by l v -> exists x, has_key E vals v x.
  Proof.
    revert cs. induction l as [|p l IH]; intros cs H; cbn [partial_children] in H.
    { injection H as <-. split; [done|]. intros v (p & Hp & _). by inversion Hp. }
    destruct (Nat.eqb_spec (length (omap (usable_key E vals) (indices p))) (length (indices p))) as [Hl|]; [|done].
    cbn [negb] in H. destruct (partial_children E vals l) as [r|]; [|done]. injection H as <-.
    destruct (IH r eq_refl) as [-> Hc]. pose proof (usable_all _ _ _ Hl) as Hk.
    assert (forall v, takes_part v p -> exists x, has_key E vals v x) as Hv.
    { intros v Hv. apply Hk. by apply validator_indices_spec. }
    split; [cbn; repeat f_equal; by apply keys_of_usable|].
    intros v (q & Hq & Hvq). apply elem_of_cons in Hq as [->|Hq]; [by apply Hv|]. apply Hc. by exists q.
  Qed.

  Lemma combine_spec n keylists bytes c :
    ca_local c = local_proofs n (at_data (ca_att c)) ->
    (forall v, votes_in v (ca_att c) -> exists x, has_key E vals v x) ->
    exists o, combine_candidate E P P2 vals keylists bytes c = Ok o /\
    forall d p, o = Some (d, p) -> d = at_data (ca_att c) /\ ad_slot d < two32 /\
      (forall v, takes_part v p <-> votes_in v (ca_att c) \/ has_vote E n d v) /\
      (forall v, takes_part v p -> exists x, has_key E vals v x) /\
      exists split, pv_split P2 bytes keylists (e_data E d) = Some split /\
        ((ca_local c = [] /\ p = mkProof (at_bits (ca_att c)) split) \/
         (is_union (pr_bits p) (mkProof (at_bits (ca_att c)) split :: ca_local c) /\
          pv_aggregate P ((default [] (keylists !! ca_idx c), split) ::
            map (fun p => (keys_of vals (pr_bits p), pr_bytes p)) (ca_local c)) (e_data E d) (ad_slot d) = Some (pr_bytes p))).
  Proof.
    intros Hloc Hkeys. unfold combine_candidate. set (a := ca_att c) in *. set (d := at_data a) in *.
    destruct (N.leb_spec two32 (ad_slot d)) as [|Hsl]; [by exists None|].
    destruct (pv_split _ _ _ _) as [split|] eqn:Hsp; [|by exists None].
    destruct (decide (ca_local c = [])) as [Hnil|Hnn].
    { rewrite Hnil. eexists. split; [done|]. intros d' p' [= <- <-].
      assert (forall v, takes_part v (mkProof (at_bits a) split) <-> votes_in v a) as Ht by done.
      split; [done|]. split; [done|]. split; [|split; [done|exists split; split; [done|by left]]].
      intros v. rewrite Ht. split; [by left|]. intros [H|H]; [done|]. apply local_has in H. fold d in H. rewrite <- Hloc, Hnil in H.
      destruct H as (q & Hq & _). by inversion Hq. }
    assert (exists o, (match partial_children E vals (ca_local c) with
        | None => Ok None
        | Some cs => match pv_aggregate P ((default [] (keylists !! ca_idx c), split) :: cs) (e_data E d) (ad_slot d) with
            | None => Ok None
            | Some merged =>
                let! ub := bits_from_indices (validator_indices (at_bits a) ++ concat (map indices (ca_local c))) in
                Ok (Some (d, mkProof ub merged)) end end) = Ok (E := unit) o /\
      forall d' p, o = Some (d', p) -> d' = d /\ ad_slot d' < two32 /\
      (forall v, takes_part v p <-> votes_in v a \/ has_vote E n d' v) /\
      (forall v, takes_part v p -> exists x, has_key E vals v x) /\
      exists split0, Some split = Some split0 /\
        ((ca_local c = [] /\ p = mkProof (at_bits a) split0) \/
         (is_union (pr_bits p) (mkProof (at_bits a) split0 :: ca_local c) /\
          pv_aggregate P ((default [] (keylists !! ca_idx c), split0) ::
            map (fun p => (keys_of vals (pr_bits p), pr_bytes p)) (ca_local c)) (e_data E d') (ad_slot d') = Some (pr_bytes p)))) as Hgo.
    2:{ destruct Hgo as (o & H1 & H2). exists o. split.
        - rewrite <- H1. destruct (ca_local c); done.
        - intros d' p' Ho. destruct (H2 d' p' Ho) as (-> & H). split; [done|]. rewrite Hsp. exact H. }
    destruct (partial_children E vals (ca_local c)) as [cs|] eqn:Hpc; [|by exists None].
    apply partial_spec in Hpc as [-> Hpk].
    destruct (pv_aggregate _ _ _ _) as [merged|] eqn:Hag; [|by exists None].
    assert (forall v, v ∈ validator_indices (at_bits a) ++ concat (map indices (ca_local c)) <-> votes_in v a \/ has_vote E n d v) as Hel.
    { intros v. rewrite elem_of_app, concat_indices, validator_indices_spec, Hloc. fold d. by rewrite local_has. }
    assert (forall v, votes_in v a \/ has_vote E n d v -> exists x, has_key E vals v x) as Hall.
    { intros v [Hv|Hv]; [by apply Hkeys|]. apply Hpk. rewrite Hloc. by apply local_has. }
    destruct (bits_from_ok (validator_indices (at_bits a) ++ concat (map indices (ca_local c)))) as [ub Hub].
    { intros v Hv. apply Hel, Hall in Hv as (k & x & Hx & _). apply lookup_lt_Some in Hx. unfold lenN in Hvals. lia. }
    rewrite Hub. cbn [rbind]. eexists. split; [done|]. intros d' p' [= <- <-].
    assert (forall v, takes_part v (mkProof ub merged) <-> votes_in v a \/ has_vote E n d v) as Ht.
    { intros v. unfold takes_part. cbn. rewrite (bits_from_spec _ _ v Hub). apply Hel. }
    split; [done|]. split; [done|]. split; [done|]. split; [intros v Hv; by apply Hall, Ht|].
    exists split. split; [done|]. right. split; [|done]. cbn [pr_bits]. intros v.
    change (takes_part v (mkProof ub merged) <-> covered_by (mkProof (at_bits a) split :: ca_local c) v). rewrite Ht.
    rewrite <- local_has. fold d. rewrite <- Hloc. unfold covered_by. split.
    - intros [Hv|(q & Hq & Hv)]; [exists (mkProof (at_bits a) split); split; [left|done]|exists q; split; [by right|done]].
    - intros (q & Hq & Hv). apply elem_of_cons in Hq as [->|Hq]; [by left|right]. by exists q.
  Qed.

  Lemma combine_all_spec n keylists bytes atts cs :
    (forall c, c ∈ cs -> ca_local c = local_proofs n (at_data (ca_att c)) /\ atts !! ca_idx c = Some (ca_att c) /\
       forall v, votes_in v (ca_att c) -> exists x, has_key E vals v x) ->
    exists l, combine_all E P P2 vals keylists bytes cs = Ok l /\
      recovered E n atts (map (fun c => (ca_idx c, ca_new c)) cs) l /\
      forall x, x ∈ l -> exists c, c ∈ cs /\ combine_candidate E P P2 vals keylists bytes c = Ok (Some x).
  Proof.
    induction cs as [|c cs IH]; intros Hc; cbn [combine_all].
    { exists []. split; [done|]. split; [exists []; by split|]. intros x H. by inversion H. }
    destruct (Hc c (elem_of_list_here _ _)) as (H1 & H2 & H3).
    destruct (combine_spec n keylists bytes c H1 H3) as (o & Ho & Hop). rewrite Ho. cbn [rbind].
    destruct IH as (l & -> & (is & Hsub & Hf) & Hl); [intros c' Hc'; apply Hc; by right|]. cbn [rbind map].
    destruct o as [[d p]|].
    - exists ((d, p) :: l). split; [done|]. destruct (Hop d p eq_refl) as (-> & _ & Ht & _). split.
      + exists (ca_idx c :: is). split; [by constructor|]. constructor; [|done]. exists (ca_att c). done.
      + intros x Hx. apply elem_of_cons in Hx as [->|Hx]; [exists c; split; [left|done]|].
        destruct (Hl x Hx) as (c' & ? & ?). exists c'. split; [by right|done].
    - exists l. split; [done|]. split.
      + exists is. split; [by constructor|done].
      + intros x Hx. destruct (Hl x Hx) as (c' & ? & ?). exists c'. split; [by right|done].
  Qed.

  Lemma reagg_unfold A As w n sb l :
    node_inv A As w n -> reaggregate_from_block E P P2 n sb = Ok l ->
    l = [] \/ exists ks v, component_keys E vals (b_atts (sb_block sb)) = Some ks /\
      vals !! N.to_nat (b_proposer (sb_block sb)) = Some v /\
      combine_all E P P2 vals (ks ++ [[v_prop_key v]]) (sb_proof sb) (select_candidates E n (b_atts (sb_block sb))) = Ok l.
  Proof.
    intros Hi H. unfold reaggregate_from_block in H. set (b := sb_block sb) in *.
    destruct (b_atts b) as [|a0 atts0] eqn:Hat; [apply Ok_inj in H as <-; by left|]. rewrite <- Hat in *. clear Hat.
    destruct (read_state (tab n) (b_parent b)) as [[s|]| |] eqn:Hr; [| | |done]; [|apply Ok_inj in H as <-; by left..].
    rewrite (state_vals E gt vals Hgood _ _ _ _ _ _ Hi Hr) in H.
    destruct (component_keys E vals (b_atts b)) as [ks|]; [|apply Ok_inj in H as <-; by left].
    rewrite getN_lookup in H. destruct (vals !! N.to_nat (b_proposer b)) as [v|]; [|apply Ok_inj in H as <-; by left].
    destruct (negb _); [apply Ok_inj in H as <-; by left|]. right. by exists ks, v.
  Qed.
  Lemma chosen_facts n atts ks c :
    component_keys E vals atts = Some ks -> c ∈ select_candidates E n atts ->
    ca_local c = local_proofs n (at_data (ca_att c)) /\ atts !! ca_idx c = Some (ca_att c) /\
    (forall v, votes_in v (ca_att c) -> exists x, has_key E vals v x) /\
    ks !! ca_idx c = Some (keys_of vals (at_bits (ca_att c))) /\ exists v, votes_in v (ca_att c).
  Proof.
    intros Hk Hc. destruct (C53_choice_pf n atts) as [Hb Hfacts]. destruct (Hfacts c Hc) as [H1 H2].
    apply component_spec in Hk. destruct (Forall2_lookup_l _ _ _ _ _ Hk H1) as (k & Hk' & -> & Hv).
    split_and!; [done|done|done|done|].
    destruct (b4_useful _ _ _ _ Hb (ca_idx c) (ca_new c)) as (a & Ha & Hpos & (vs & _ & Hvs & Hlen) & _).
    { apply elem_of_map. by exists c. }
    assert (a = ca_att c) as -> by congruence. destruct vs as [|v vs]; [change (lenN []) with 0 in Hlen; lia|].
    exists v. by apply (proj1 (Hvs v) (elem_of_list_here _ _)).
  Qed.

  Lemma C53_recovered_inv A As w n sb :
    node_inv A As w n ->
    exists l, reaggregate_from_block E P P2 n sb = Ok l /\
      recovered E n (b_atts (sb_block sb)) (map (fun c => (ca_idx c, ca_new c)) (select_candidates E n (b_atts (sb_block sb)))) l.
  Proof.
    intros Hi. unfold reaggregate_from_block. set (b := sb_block sb).
    assert (recovered E n (b_atts b) (map (fun c => (ca_idx c, ca_new c)) (select_candidates E n (b_atts b))) []) as Hnil.
    { exists []. split; [apply sublist_nil_l|constructor]. }
    destruct (b_atts b) as [|a0 atts0] eqn:Hat; [by exists []|]. rewrite <- Hat in *. clear Hat.
    destruct (read_state (tab n) (b_parent b)) as [[s|]| |] eqn:Hr; [|by exists []|by exists []|].
    2:{ exfalso. destruct (w !! b_parent b) as [s0|] eqn:Hw.
        - pose proof (w_read E gt vals _ _ _ _ _ _ (proj1 Hi) Hw) as Hr'. unfold tab in Hr. congruence.
        - pose proof (w_read_none E gt vals _ _ _ _ _ (proj1 Hi) Hw) as Hr'. unfold tab in Hr. congruence. }
    rewrite (state_vals E gt vals Hgood _ _ _ _ _ _ Hi Hr).
    destruct (component_keys E vals (b_atts b)) as [ks|] eqn:Hk; [|by exists []].
    rewrite getN_lookup. destruct (vals !! N.to_nat (b_proposer b)) as [v|]; [|by exists []].
    destruct (negb _); [by exists []|].
    destruct (combine_all_spec n (ks ++ [[v_prop_key v]]) (sb_proof sb) (b_atts b) (select_candidates E n (b_atts b))) as (l & Hl & Hrec & _).
    - intros c Hc. destruct (chosen_facts _ _ _ _ Hk Hc) as (? & ? & ? & _). done.
    - by exists l.
  Qed.

  Lemma reagg_sound A As w A' As' w' n0 n sb l :
    node_inv A As w n0 -> node_inv A' As' w' n -> sound_node n ->
    has_state (tab n0) (block_root (e_header E) (e_body E) (sb_block sb)) = false -> on_block E n0 sb = Ok n ->
    reaggregate_from_block E P P2 n sb = Ok l -> forall d p, (d, p) ∈ l -> sound_proof E vals d p.
  Proof.
    intros Hi0 Hi Hs Hnew Hon Hre d p Hin. set (b := sb_block sb) in *.
    unfold on_block in Hon. apply rbind_Ok in Hon as (o & Hc & _).
    destruct o as [post|].
    2:{ exfalso. unfold check_block in Hc. fold b in Hc. unfold tab in Hnew. rewrite Hnew in Hc.
        apply rbind_Ok in Hc as (o & _ & Hc). destruct o; [|done]. repeat (match type of Hc with (if ?c then _ else _) = _ => destruct c; [done|] end).
        apply rbind_Ok in Hc as (_ & _ & Hc). by destruct (state_transition _ _ _ _ _). }
    apply C32_import_gates_pf in Hc as (_ & parent & s & Hg & _ & _).
    pose proof (ig_parent _ _ _ _ Hg) as Hpar. fold b in Hpar.
    pose proof (state_vals E gt vals Hgood _ _ _ _ _ _ Hi0 Hpar) as Hvs.
    destruct (ig_signed _ _ _ _ Hg) as (keys & prop & Hk & Hp & Hko & _ & _ & Hbv). fold b in Hk, Hp, Hbv. rewrite Hvs in Hk, Hp.
    destruct (reagg_unfold _ _ _ _ _ _ Hi Hre) as [->|(ks & v & Hks & Hv & Hall)]; [by inversion Hin|]. fold b in Hks, Hv, Hall.
    assert (v = prop) as -> by congruence. clear Hp.
    assert (keys = ks) as ->.
    { pose proof (component_spec _ _ Hks) as Hks'. clear -Hk Hks'. revert ks Hks'.
      induction Hk as [|a k atts keys [H _] _ IH]; intros ks H'; inversion H' as [|? k' ? ks' [H1 _] H2]; subst; [done|].
      f_equal. by apply IH. }
    destruct (combine_all_spec n (ks ++ [[v_prop_key prop]]) (sb_proof sb) (b_atts b) (select_candidates E n (b_atts b))) as (l' & Hl & _ & Hcand).
    { intros c Hc. destruct (chosen_facts _ _ _ _ Hks Hc) as (? & ? & ? & _). done. }
    rewrite Hall in Hl. apply Ok_inj in Hl as <-. destruct (Hcand _ Hin) as (c & Hc & Hcc).
    destruct (chosen_facts _ _ _ _ Hks Hc) as (F1 & F2 & F3 & F4 & v0 & F5).
    destruct (combine_spec n (ks ++ [[v_prop_key prop]]) (sb_proof sb) c F1 F3) as (o & Ho & Hop).
    rewrite Hcc in Ho. apply Ok_inj in Ho as <-. destruct (Hop d p eq_refl) as (-> & Hsl & Ht & Hkey & sp & Hsp & Hcase).
    set (a := ca_att c) in *. set (d := at_data a) in *.
    assert (e_agg_valid E sp (keys_of vals (at_bits a)) (e_data E d) (ad_slot d) = true) as Hval.
    { destruct (s2_split _ _ _ Hpr _ _ _ (e_data E d) sp Hbv) as (i & kk & slot & K1 & K2 & K3 & K4); [|exact Hsp|].
      - rewrite !app_length, map_length, <- (Forall2_length _ _ _ Hk). done.
      - assert (ca_idx c = i) as Hci.
        { apply (K3 _ (ad_slot d)). rewrite lookup_app_l.
          - rewrite list_lookup_fmap, F2. done.
          - rewrite map_length. by apply lookup_lt_Some in F2. }
        rewrite <- Hci in K1, K2. rewrite lookup_app_l in K1 by (by apply lookup_lt_Some in F4).
        rewrite lookup_app_l in K2 by (rewrite map_length; by apply lookup_lt_Some in F2).
        rewrite list_lookup_fmap, F2 in K2. cbn in K2. fold a d in K2. injection K2 as <-.
        assert (kk = keys_of vals (at_bits a)) as -> by congruence. done. }
    split.
    - exists v0. apply Ht. by left.
    - intros v Hv0. destruct (Hkey v Hv0) as (k & x & Hx & _). apply lookup_lt_Some in Hx. unfold lenN. lia.
    - by apply keys_of_usable.
    - done.
    - destruct Hcase as [[_ ->]|[Hun Hag]]; [done|].
      rewrite (lookup_app_l_Some _ _ _ _ F4) in Hag. cbn [default] in Hag.
      eapply (s2_aggregate _ _ _ Hpr vals (mkProof (at_bits a) sp :: ca_local c)); [|exact Hun|exact Hag].
      intros q Hq. apply elem_of_cons in Hq as [->|Hq].
      + cbn. split; [|done]. intros v Hvq. destruct (F3 v Hvq) as (k & x & Hx & _). apply lookup_lt_Some in Hx. unfold lenN. lia.
      + rewrite F1 in Hq. pose proof (node_sound n d q (proj2 Hi) Hs Hq) as Hsq. split; apply Hsq.
  Qed.

  (** *** Nodes with their own aggregation *)
  Lemma own_run n : own_reachable E P P2 gt vals n -> reachable_sound E gt vals n /\ sound_sigs n.
  Proof.
    assert (forall n e n', reachable_sound E gt vals n /\ sound_sigs n -> sound_event E vals e -> node_step E n e = Ok n' ->
      reachable_sound E gt vals n' /\ sound_sigs n') as Hstep.
    { intros n0 e n' [Hr Hs] He H.
      destruct (reachable_inv E gt vals Hgood Hvals n0 (reachable_of_sound _ _ _ _ Hr)) as (A & As & w & Hn & _).
      split; [|by eapply (step_sigs E gt vals Hgood Hvals Hinj)].
      destruct Hr as (a & m & es & H1 & H2 & H3 & H4). exists a, m, (es ++ [e]). split_and!; [done|done|by eapply nr_snoc|].
      apply Forall_app. split; [done|]. by repeat constructor. }
    induction 1 as [a n Ha Hst|n e n' _ IH He H|n n0 iter_raw groups keys cur mj js j d p ps del n' _ IH _ IH0 Hit Hord Hsn Hj Hag Hap
                   |n0 n sb l n' _ IH Hnew Hon Hre Hins].
    - split.
      + exists a, n, []. split_and!; [done|done|constructor|constructor].
      + destruct Hst as (db & [[_ ->]|(sb0 & _ & [-> | ->])]); intros d v s; cbn; unfold sig_of; cbn; by rewrite lookup_empty.
    - eapply Hstep; [exact IH| |exact H]. by destruct e.
    - assert (sound_proof E vals d p) as Hsp.
      { destruct IH0 as [Hr0 Hs0]. pose proof (reachable_of_sound _ _ _ _ Hr0) as Hrr.
        destruct (reachable_inv E gt vals Hgood Hvals n0 Hrr) as (A & As & w & Hn & _).
        destruct (snapshot_ok E gt vals Hgood Hvals iter_raw n0 groups keys cur mj Hit Hrr Hord) as (js' & Hsn' & _ & _ & Hall).
        rewrite Hsn in Hsn'. apply Ok_inj in Hsn' as <-.
        eapply (job_sound n0); [apply Hn|by apply (reachable_pool E gt vals Hgood Hvals Hinj)|exact Hs0|by apply Hall|exact Hag]. }
      eapply (Hstep n (ev_local [(d, p)] del)); [exact IH| |].
      + cbn. intros d' p' H. apply elem_of_list_singleton in H as [= -> ->]. done.
      + cbn [node_step insert_new_batch]. unfold apply_aggregated_group in Hap.
        destruct (insert_new_aggregated_payload E n d p) as [n1| |]; [|done..]. cbn [rbind] in *. done.
    - assert (reachable_sound E gt vals n /\ sound_sigs n) as Hn.
      { eapply (Hstep n0 (ev_block sb)); [exact IH|done|]. cbn [node_step]. rewrite Hon. done. }
      destruct (reachable_inv E gt vals Hgood Hvals n0 (reachable_of_sound _ _ _ _ (proj1 IH))) as (A & As & w & Hi0 & _).
      destruct (reachable_inv E gt vals Hgood Hvals n (reachable_of_sound _ _ _ _ (proj1 Hn))) as (A' & As' & w' & Hi & _).
      eapply (Hstep n (ev_local l [])); [exact Hn| |].
      + cbn. eapply (reagg_sound _ _ _ _ _ _ n0 n sb l Hi0 Hi); [exact (reachable_pool E gt vals Hgood Hvals Hinj n (proj1 Hn))|done|done|done].
      + cbn [node_step]. rewrite Hins. cbn [rbind].
        assert (gossip_delete (nd_gossip n') [] = Ok (nd_gossip n')) as ->; [|by destruct n'].
        unfold gossip_delete. cbn [delete_loop rbind]. rewrite bool_decide_true by done. by destruct (nd_gossip n').
  Qed.

  (** With provers that do not fail everything chosen is recovered. *)
  Lemma partial_ok d l : (forall q, q ∈ l -> sound_proof E vals d q) -> partial_children E vals l <> None.
  Proof.
    induction l as [|p l IH]; intros Hl; cbn [partial_children]; [done|].
    assert (omap (usable_key E vals) (indices p) = keys_of vals (pr_bits p)) as Hk.
    { pose proof (Hl p (elem_of_list_here _ _)) as Hp.
      assert (att_keys vals (indices p) = Some (keys_of vals (pr_bits p))) as Ha by (apply keys_range; apply Hp).
      pose proof (sp_keys _ _ _ _ Hp) as Hko.
      apply usable_keys. intros v Hv. assert (takes_part v p) as Htp by (by apply validator_indices_spec).
      pose proof (sp_range _ _ _ _ Hp v Htp) as Hr.
      destruct (lookup_lt_is_Some_2 vals (N.to_nat v)) as [x Hx]; [unfold lenN in Hr; lia|].
      exists (v_att_key x), x. split; [done|]. split; [done|]. rewrite Forall_forall in Hko. apply Hko.
      unfold keys_of. apply elem_of_list_omap. exists v. split; [done|]. by rewrite Hx. }
    rewrite Hk. pose proof (Hl p (elem_of_list_here _ _)) as Hp.
    assert (att_keys vals (indices p) = Some (keys_of vals (pr_bits p))) as Ha by (apply keys_range; apply Hp).
    apply att_keys_spec in Ha as [_ ->]. rewrite Nat.eqb_refl. cbn [negb].
    destruct (partial_children E vals l); [done|]. exfalso. apply IH; [|done]. intros q Hq. apply Hl. by right.
  Qed.
  Lemma C53_all_inv A As w A' As' w' n0 n sb s :
    never_fails P P2 ->
    node_inv A As w n0 -> node_inv A' As' w' n -> sound_node n ->
    has_state (tab n0) (block_root (e_header E) (e_body E) (sb_block sb)) = false -> on_block E n0 sb = Ok n ->
    read_state (tab n) (b_parent (sb_block sb)) = Ok (Some s) ->
    exists l, reaggregate_from_block E P P2 n sb = Ok l /\
      map fst l = map (fun c => at_data (ca_att c)) (select_candidates E n (b_atts (sb_block sb))).
  Proof.
    intros [Hsplit Hagg] Hi0 Hi Hs Hnew Hon Hrs. set (b := sb_block sb) in *.
    unfold on_block in Hon. apply rbind_Ok in Hon as (o & Hc & _).
    destruct o as [post|].
    2:{ exfalso. unfold check_block in Hc. fold b in Hc. unfold tab in Hnew. rewrite Hnew in Hc.
        apply rbind_Ok in Hc as (o & _ & Hc). destruct o; [|done]. repeat (match type of Hc with (if ?c then _ else _) = _ => destruct c; [done|] end).
        apply rbind_Ok in Hc as (_ & _ & Hc). by destruct (state_transition _ _ _ _ _). }
    apply C32_import_gates_pf in Hc as (_ & parent & s' & Hg & _ & _).
    pose proof (ig_parent _ _ _ _ Hg) as Hpar. fold b in Hpar.
    pose proof (state_vals E gt vals Hgood _ _ _ _ _ _ Hi0 Hpar) as Hvs.
    destruct (ig_signed _ _ _ _ Hg) as (keys & prop & Hk & Hp & Hko & Hsl & _ & _). fold b in Hk, Hp, Hsl. rewrite Hvs in Hk, Hp.
    apply Forall_app in Hko as [Hko Hkp]. apply (proj1 (Forall_singleton _ _)) in Hkp. apply (proj1 (Forall_singleton _ _)) in Hkp. cbn beta in Hkp.
    assert (exists ks, component_keys E vals (b_atts b) = Some ks) as [ks Hks].
    { clear -Hk Hko. induction Hk as [|a k atts keys [-> Hl] _ IH]; cbn [component_keys]; [by exists []|].
      inversion Hko as [|? ? Hk1 Hk2]; subst. destruct (IH Hk2) as [ks ->].
      assert (omap (usable_key E vals) (validator_indices (at_bits a)) = omap (fun v => v_att_key <$> vals !! N.to_nat v) (validator_indices (at_bits a))) as ->.
      { apply usable_keys. intros v Hv. rewrite Forall_forall in Hk1.
        assert (exists x, vals !! N.to_nat v = Some x) as [x Hx].
        { clear -Hl Hv. assert (forall l : list N, (length (omap (fun v => v_att_key <$> vals !! N.to_nat v) l) <= length l)%nat) as Hle.
          { intros l0. induction l0 as [|i l0 IH]; cbn; [done|]. destruct (vals !! N.to_nat i); cbn; lia. }
          revert Hl Hv. generalize (validator_indices (at_bits a)). induction l as [|i l IH]; intros Hl Hv; [by inversion Hv|].
          cbn in Hl. specialize (Hle l). destruct (vals !! N.to_nat i) as [x|] eqn:Hx; cbn in Hl; [|lia].
          apply elem_of_cons in Hv as [->|Hv]; [by exists x|]. apply IH; [lia|done]. }
        exists (v_att_key x), x. split; [done|]. split; [done|]. apply Hk1. apply elem_of_list_omap. exists v. split; [done|]. by rewrite Hx. }
      rewrite Hl, Nat.eqb_refl. cbn [negb]. by eexists. }
    unfold reaggregate_from_block. fold b.
    destruct (b_atts b) as [|a0 atts0] eqn:Hat; [by exists []|]. rewrite <- Hat in *. clear Hat.
    rewrite Hrs, (state_vals E gt vals Hgood _ _ _ _ _ _ Hi Hrs), Hks, getN_lookup, Hp, Hkp. cbn [negb].
    assert (forall c, c ∈ select_candidates E n (b_atts b) -> exists p,
      combine_candidate E P P2 vals (ks ++ [[v_prop_key prop]]) (sb_proof sb) c = Ok (Some (at_data (ca_att c), p))) as Hall.
    { intros c Hc. destruct (chosen_facts _ _ _ _ Hks Hc) as (F1 & F2 & F3 & _).
      destruct (combine_spec n (ks ++ [[v_prop_key prop]]) (sb_proof sb) c F1 F3) as (o & Ho & Hop).
      destruct o as [[d p]|].
      - destruct (Hop d p eq_refl) as [-> _]. by exists p.
      - exfalso. unfold combine_candidate in Ho. destruct (N.leb_spec two32 (ad_slot (at_data (ca_att c)))) as [H32|].
        + rewrite Forall_forall in Hsl. specialize (Hsl (ca_att c) (elem_of_list_lookup_2 _ _ _ F2)). cbn in Hsl. lia.
        + destruct (pv_split _ _ _ _) as [sp|] eqn:Hsp; [|by destruct (Hsplit (sb_proof sb) (ks ++ [[v_prop_key prop]]) (e_data E (at_data (ca_att c))))].
          destruct (ca_local c) as [|q0 l0] eqn:Hl; [done|]. rewrite <- Hl in *. clear Hl.
          destruct (partial_children E vals (ca_local c)) as [cs|] eqn:Hpc.
          * destruct (pv_aggregate _ _ _ _) as [m|] eqn:Hm; [|by eapply Hagg].
            destruct (bits_from_indices _); done.
          * eapply partial_ok; [|exact Hpc]. intros q Hq. rewrite F1 in Hq. exact (node_sound n _ q (proj2 Hi) Hs Hq). }
    revert Hall. generalize (select_candidates E n (b_atts b)). induction l as [|c l IH]; intros Hall; cbn [combine_all]; [by exists []|].
    destruct (Hall c (elem_of_list_here _ _)) as [p ->]. cbn [rbind].
    destruct IH as (r & -> & Hr); [intros c' Hc'; apply Hall; by right|]. cbn [rbind]. eexists. split; [done|]. cbn. by rewrite Hr.
  Qed.
End Sound.

Lemma C39_snapshot_pf E gt vals iter_raw n groups keys cur k :
  good_hash (e_header E) -> lenN vals <= VALIDATOR_REGISTRY_LIMIT -> (forall l, iter_raw l ≡ₚ l) ->
  reachable E gt vals n -> in_some_order n groups keys ->
  exists js, snapshot_aggregation_inputs E iter_raw n groups keys cur k = Ok js /\
    (length js <= k)%nat /\ NoDup (map jb_data js) /\
    forall j, j ∈ js -> exists sigs proofs, good_job E vals (jb_data j) sigs proofs j /\
      (forall p, p ∈ proofs -> stored_proof E n (jb_data j) p) /\
      ((forall v s, (v, s) ∈ sigs <-> sig_of (nd_gossip n) (e_data E (jb_data j)) v = Some s) \/ sigs = []).
Proof.
  intros Hg Hv Hi Hr Ho. destruct (snapshot_ok E gt vals Hg Hv iter_raw n groups keys cur k Hi Hr Ho) as (js & H1 & H2 & H3 & H4).
  exists js. split_and!; [done|done|done|]. intros j Hj. destruct (H4 j Hj) as (sigs & Hgj & _ & Hs). cbn [fst snd] in *.
  exists sigs, (proofs_of (nd_new n) (e_data E (jb_data j)) ++ proofs_of (nd_known n) (e_data E (jb_data j))).
  split_and!; [done| |done]. intros p Hp. unfold stored_proof. apply elem_of_app in Hp as [Hp|Hp]; unfold proofs_of in Hp.
  - destruct (bf_data (nd_new n) !! e_data E (jb_data j)) as [e|]; [|by inversion Hp]. exists e. split; [by left|done].
  - destruct (bf_data (nd_known n) !! e_data E (jb_data j)) as [e|]; [|by inversion Hp]. exists e. split; [by right|done].
Qed.
Lemma C39_own_pf E P P2 gt vals n :
  good_hash (e_header E) -> lenN vals <= VALIDATOR_REGISTRY_LIMIT -> inj_data E -> sound_prover E P P2 ->
  own_reachable E P P2 gt vals n ->
  (forall d p, stored_proof E n d p -> sound_proof E vals d p) /\
  (forall d v s, sig_of (nd_gossip n) (e_data E d) v = Some s ->
     exists k, has_key E vals v k /\ e_sig_valid E k (ad_slot d) (e_data E d) s = true).
Proof.
  intros Hg Hv Hi Hp Hr. destruct (own_run E P P2 gt vals Hg Hv Hi Hp n Hr) as [Hrs Hs]. split.
  - intros d p (e & He & Hin). destruct (reachable_inv E gt vals Hg Hv n (reachable_of_sound _ _ _ _ Hrs)) as (A & As & w & (_ & H1 & H2 & _) & _).
    destruct (reachable_pool E gt vals Hg Hv Hi n Hrs) as [S1 S2].
    destruct He as [He|He].
    + pose proof (Hi _ _ (po_key _ _ H1 _ _ He)) as Hd. rewrite <- Hd in *. by eapply S1.
    + pose proof (Hi _ _ (po_key _ _ H2 _ _ He)) as Hd. rewrite <- Hd in *. by eapply S2.
  - intros d v s H. destruct (Hs d v s H) as (k & H1 & _ & H2). by exists k.
Qed.
Lemma C53_choice_thm E n atts :
  best_four E n atts (map (fun c => (ca_idx c, ca_new c)) (select_candidates E n atts)) /\
  forall c, c ∈ select_candidates E n atts -> atts !! ca_idx c = Some (ca_att c).
Proof. destruct (C53_choice_pf E n atts) as [H1 H2]. split; [done|]. intros c Hc. by destruct (H2 c Hc). Qed.
Lemma C53_recovered_pf E P P2 gt vals n sb :
  good_hash (e_header E) -> lenN vals <= VALIDATOR_REGISTRY_LIMIT -> reachable E gt vals n ->
  exists l, reaggregate_from_block E P P2 n sb = Ok l /\
    recovered E n (b_atts (sb_block sb)) (map (fun c => (ca_idx c, ca_new c)) (select_candidates E n (b_atts (sb_block sb)))) l.
Proof.
  intros Hg Hv Hr. destruct (reachable_inv E gt vals Hg Hv n Hr) as (A & As & w & Hn & _).
  exact (C53_recovered_inv E P P2 gt vals Hg Hv A As w n sb Hn).
Qed.
Lemma C53_all_pf E P P2 gt vals n0 n sb s :
  good_hash (e_header E) -> lenN vals <= VALIDATOR_REGISTRY_LIMIT -> inj_data E -> never_fails P P2 ->
  reachable_sound E gt vals n0 ->
  has_state (tab n0) (block_root (e_header E) (e_body E) (sb_block sb)) = false -> on_block E n0 sb = Ok n ->
  read_state (tab n) (b_parent (sb_block sb)) = Ok (Some s) ->
  exists l, reaggregate_from_block E P P2 n sb = Ok l /\
    map fst l = map (fun c => at_data (ca_att c)) (select_candidates E n (b_atts (sb_block sb))).
Proof.
  intros Hg Hv Hi Hnf Hr Hnew Hon Hs.
  assert (reachable_sound E gt vals n) as Hr'.
  { destruct Hr as (a & m & es & H1 & H2 & H3 & H4). exists a, m, (es ++ [ev_block sb]). split_and!; [done|done| |].
    - eapply nr_snoc; [exact H3|]. cbn [node_step]. by rewrite Hon.
    - apply Forall_app. split; [done|]. by repeat constructor. }
  destruct (reachable_inv E gt vals Hg Hv n0 (reachable_of_sound _ _ _ _ Hr)) as (A & As & w & Hn0 & _).
  destruct (reachable_inv E gt vals Hg Hv n (reachable_of_sound _ _ _ _ Hr')) as (A' & As' & w' & Hn & _).
  eapply (C53_all_inv E P P2 gt vals Hg Hv Hi A As w A' As' w' n0 n sb s); try done.
  exact (reachable_pool E gt vals Hg Hv Hi n Hr').
Qed.
