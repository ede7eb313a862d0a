(** Concrete chains for the safety properties. *)
From Verif Require Export SafetyProofs InjHash.
Local Open Scope N_scope.

Notation i_chain := (chain i_state i_header toy_body 1000 (toy_vals 3)).
Notation i_entries := (chain_entries i_state i_header toy_body 1000 (toy_vals 3)).
Notation i_in_block := (in_block i_state i_header toy_body 1000 (toy_vals 3)).

Notation j_stf := (state_transition i_state i_header toy_body).
(** What an honest proposer builds on [s]. *)
Definition j_block (s : State) (slot : N) (atts : list AggAtt) : Block :=
  match process_slots i_state s slot with
  | Ok s1 =>
      let b := mkBlock slot (slot mod lenN (s_validators s)) (i_header (s_header s1)) 0 atts in
      match process_block i_header toy_body s1 b with
      | Ok s2 => mkBlock slot (b_proposer b) (b_parent b) (i_state s2) atts
      | _ => b
      end
  | _ => mkBlock 0 0 0 0 []
  end.

Definition step (x : State * list Block) (slot : N) (f : State -> list AggAtt) : State * list Block :=
  let b := j_block x.1 slot (f x.1) in
  match j_stf x.1 b with Ok s => (s, x.2 ++ [b]) | _ => x end.
Lemma step_chain x slot f : i_chain x.1 x.2 -> i_chain (step x slot f).1 (step x slot f).2.
Proof.
  intros H. unfold step. destruct (j_stf x.1 (j_block x.1 slot (f x.1))) as [s| |] eqn:E; [|done..].
  by eapply chain_step.
Qed.
(** The checkpoint of the latest block of a chain. *)
Definition tip (x : State * list Block) : Checkpoint :=
  mkCp (i_header (filled_header i_state x.1)) (s_slot x.1).
Definition all3 : list bool := [true; true; true].
Definition vote (src tgt : State * list Block) : AggAtt :=
  mkAtt all3 (mkAD (cp_slot (tip tgt)) (tip tgt) (tip tgt) (tip src)).

Definition g0 : State * list Block := (genesis toy_body 1000 (toy_vals 3), []).
Lemma g0_chain : i_chain g0.1 g0.2.
Proof. constructor. Qed.

(** *** Conflicting finalization without any offence *)
Definition z6 := step g0 6 (fun _ => []).
Definition p12 := step z6 12 (fun _ => [vote g0 z6]).
Definition p16 := step p12 16 (fun _ => [vote z6 p12]).
Definition p17 := step p16 17 (fun _ => [vote p12 p16]).
Definition q9 := step z6 9 (fun _ => [vote g0 z6]).
Definition q15 := step q9 15 (fun _ => [vote z6 q9]).
Definition q18 := step q15 18 (fun _ => [vote q9 q15]).
Definition q19 := step q18 19 (fun _ => [vote q15 q18]).
Lemma p17_chain : i_chain p17.1 p17.2.
Proof. repeat apply step_chain. exact g0_chain. Qed.
Lemma q19_chain : i_chain q19.1 q19.2.
Proof. repeat apply step_chain. exact g0_chain. Qed.

Definition all_data (bs : list Block) : list AttestationData := concat (map (fun b => map at_data (b_atts b)) bs).
Definition conflictb (d d' : AttestationData) : bool :=
  let ceq c c' := (cp_root c =? cp_root c') && (cp_slot c =? cp_slot c') in
  (cp_slot (ad_target d) =? cp_slot (ad_target d')) &&
    negb (ceq (ad_target d) (ad_target d') && ceq (ad_source d) (ad_source d')) ||
  (cp_slot (ad_source d) <? cp_slot (ad_source d')) && (cp_slot (ad_target d') <? cp_slot (ad_target d)).
Lemma conflictb_spec d d' : double_vote d d' \/ surrounds d d' -> conflictb d d' = true.
Proof.
  unfold conflictb. intros [[H1 H2]|[H1 H2]].
  - apply orb_true_iff. left. rewrite H1, N.eqb_refl. cbn [andb]. apply negb_true_iff.
    match goal with |- ?x = false => destruct x eqn:E; [|done] end.
    apply andb_true_iff in E as [E1 E2].
    apply andb_true_iff in E1 as [E1%N.eqb_eq _].
    apply andb_true_iff in E2 as [E2%N.eqb_eq E2'%N.eqb_eq].
    destruct (ad_target d), (ad_target d'), (ad_source d), (ad_source d'). cbn in *. subst. naive_solver.
  - apply orb_true_iff. right. apply andb_true_iff. split; by apply N.ltb_lt.
Qed.
Lemma cast_data bs v d : cast bs v d -> In d (all_data bs).
Proof.
  intros (b & a & Hb & Ha & _ & <-). apply in_concat. exists (map at_data (b_atts b)). split.
  - apply (in_map (fun b => map at_data (b_atts b))). by apply elem_of_list_In.
  - apply in_map. by apply elem_of_list_In.
Qed.
Lemma no_offence bs :
  forallb (fun d => forallb (fun d' => negb (conflictb d d')) (all_data bs)) (all_data bs) = true ->
  forall v, ~ slashable bs v.
Proof.
  intros H v (d & d' & H1 & H2 & Hc). apply conflictb_spec in Hc.
  pose proof (cast_data bs v) as Hin.
  rewrite forallb_forall in H. specialize (H d (Hin _ H1)). cbn beta in H.
  rewrite forallb_forall in H. specialize (H d' (Hin _ H2)). cbn beta in H.
  by rewrite Hc in H.
Qed.
Lemma pq_no_offence : forall v, ~ slashable (p17.2 ++ q19.2) v.
Proof. apply no_offence. vm_compute. reflexivity. Qed.
Lemma pq_finalized :
  cp_slot (s_finalized p17.1) = 12 /\ cp_slot (s_finalized q19.1) = 15 /\
  s_finalized p17.1 = tip p12 /\ s_finalized q19.1 = tip q15.
Proof. vm_compute. done. Qed.
Lemma not_entry (x : State * list Block) t r :
  forallb (fun p : N * N => negb ((p.1 =? t) && (p.2 =? r))) (i_entries x.2) = true ->
  (t, r) ∉ i_entries x.2.
Proof.
  intros H Hin. apply elem_of_list_In in Hin. rewrite forallb_forall in H.
  specialize (H _ Hin). cbn in H. by rewrite !N.eqb_refl in H.
Qed.
Lemma pq_conflict :
  (cp_slot (s_finalized p17.1), cp_root (s_finalized p17.1)) ∉ i_entries q19.2 /\
  (cp_slot (s_finalized q19.1), cp_root (s_finalized q19.1)) ∉ i_entries p17.2.
Proof. split; apply not_entry; vm_compute; reflexivity. Qed.

Lemma safety_refuted_pf :
  exists hash_state hash_header hash_body gt vals s1 bs1 s2 bs2,
    (forall h h', hash_header h = hash_header h' -> h = h') /\
    lenN vals <= VALIDATOR_REGISTRY_LIMIT /\
    chain hash_state hash_header hash_body gt vals s1 bs1 /\
    chain hash_state hash_header hash_body gt vals s2 bs2 /\
    (cp_slot (s_finalized s1), cp_root (s_finalized s1)) ∉
      chain_entries hash_state hash_header hash_body gt vals bs2 /\
    (cp_slot (s_finalized s2), cp_root (s_finalized s2)) ∉
      chain_entries hash_state hash_header hash_body gt vals bs1 /\
    (forall v, ~ slashable (bs1 ++ bs2) v).
Proof.
  exists i_state, i_header, toy_body, 1000, (toy_vals 3), p17.1, p17.2, q19.1, q19.2.
  split; [exact i_header_inj|]. split; [vm_compute; discriminate|].
  split; [exact p17_chain|]. split; [exact q19_chain|].
  split; [exact (proj1 pq_conflict)|]. split; [exact (proj2 pq_conflict)|]. exact pq_no_offence.
Qed.

(** *** Two chains whose first finalized blocks conflict *)
Definition u1 := step g0 1 (fun _ => []).
Definition u2 := step u1 2 (fun _ => [vote g0 u1]).
Definition u_att : AggAtt := vote u1 u2.
Definition u_blk : Block := j_block u2.1 3 [u_att].
Definition w4 := step g0 4 (fun _ => []).
Definition w5 := step w4 5 (fun _ => [vote g0 w4]).
Definition w_att : AggAtt := vote w4 w5.
Definition w_blk : Block := j_block w5.1 6 [w_att].
Definition mid (s : State) (b : Block) : State :=
  match process_slots i_state s (b_slot b) with
  | Ok s1 => match process_block_header i_header toy_body s1 b with Ok s2 => s2 | _ => s end
  | _ => s end.
Definition midb (s : State) (b : Block) : bool :=
  match process_slots i_state s (b_slot b) with
  | Ok s1 => match process_block_header i_header toy_body s1 b with
             | Ok _ => true | _ => false end
  | _ => false end.
Definition u_mid := mid u2.1 u_blk.
Definition w_mid := mid w5.1 w_blk.
Lemma mid_in_block x b :
  i_chain x.1 x.2 -> midb x.1 b = true -> i_in_block (mid x.1 b) x.2 b [].
Proof.
  intros Hch. unfold mid, midb.
  destruct (process_slots i_state x.1 (b_slot b)) as [s1| |] eqn:E1; [|done..].
  destruct (process_block_header i_header toy_body s1 b) as [s2| |] eqn:E2; [|done..].
  intros _. exists x.1, s1, s2. split_and!; try done.
  pose proof (chain_has_facts _ _ _ _ _ _ _ Hch) as Hcf.
  pose proof (header_step _ _ _ _ _ _ _ _ _ _ Hcf E1 E2) as Hhf.
  pose proof (header_state_inv _ _ _ _ _ _ _ _ _ Hcf Hhf) as [Hinv2 Hcan2].
  apply process_nil.
  - split; [by eapply loop_inv_mono, Hinv2|done].
  - exact (hf_limit _ _ _ _ _ _ _ _ _ Hhf).
  - rewrite (hf_vals _ _ _ _ _ _ _ _ _ Hhf). vm_compute. discriminate.
Qed.
Lemma u_in_block : i_in_block u_mid u2.2 u_blk [].
Proof. apply mid_in_block; [repeat apply step_chain; exact g0_chain|vm_compute; reflexivity]. Qed.
Lemma w_in_block : i_in_block w_mid w5.2 w_blk [].
Proof. apply mid_in_block; [repeat apply step_chain; exact g0_chain|vm_compute; reflexivity]. Qed.

Lemma all3_two_thirds m src tgt : two_thirds 3 (voters_after m (vote src tgt)).
Proof.
  exists [0; 1; 2]. split; [apply (bool_decide_unpack _); vm_compute; exact I|].
  split; [|vm_compute; done]. intros v Hv.
  apply elem_of_cons in Hv as [->|Hv]; [split; [done|right; vm_compute; done]|].
  apply elem_of_cons in Hv as [->|Hv]; [split; [done|right; vm_compute; done]|].
  apply elem_of_list_singleton in Hv as ->. split; [done|right; vm_compute; done].
Qed.
Lemma u_counts : vote_counts u_mid (at_data u_att) /\ finalizes u_mid u_att.
Proof.
  split.
  - unfold vote_counts, on_chain. repeat split; try (vm_compute; done). left. vm_compute. done.
  - split; [vm_compute; done|]. intros t [H1 H2].
    assert (cp_slot (ad_source (at_data u_att)) = 1) as E1 by (vm_compute; reflexivity).
    assert (cp_slot (ad_target (at_data u_att)) = 2) as E2 by (vm_compute; reflexivity). lia.
Qed.
Lemma w_counts : vote_counts w_mid (at_data w_att) /\ finalizes w_mid w_att.
Proof.
  split.
  - unfold vote_counts, on_chain. repeat split; try (vm_compute; done). left. vm_compute. done.
  - split; [vm_compute; done|]. intros t [H1 H2].
    assert (cp_slot (ad_source (at_data w_att)) = 4) as E1 by (vm_compute; reflexivity).
    assert (cp_slot (ad_target (at_data w_att)) = 5) as E2 by (vm_compute; reflexivity). lia.
Qed.
(** All votes with one target have one source. *)
Definition single_sourceb (bs : list Block) (a : AggAtt) : bool :=
  forallb (fun d => negb (cp_root (ad_target d) =? cp_root (ad_target (at_data a))) ||
    (cp_root (ad_source d) =? cp_root (ad_source (at_data a))) &&
    (cp_slot (ad_source d) =? cp_slot (ad_source (at_data a)))) (all_data bs).
Lemma single_sourceb_spec bs a :
  single_sourceb bs a = true ->
  forall v d, cast bs v d -> ad_target d = ad_target (at_data a) -> ad_source d = ad_source (at_data a).
Proof.
  intros H v d Hc Ht. unfold single_sourceb in H. rewrite forallb_forall in H.
  specialize (H d). cbn beta in H. rewrite Ht, N.eqb_refl in H. cbn [negb orb] in H.
  pose proof (cast_data _ _ _ Hc) as Hin.
  apply H, andb_true_iff in Hin as [E1%N.eqb_eq E2%N.eqb_eq].
  destruct (ad_source d), (ad_source (at_data a)). cbn in *. congruence.
Qed.
Lemma u_single : forall v d, cast ([] ++ u2.2 ++ [u_blk]) v d ->
  ad_target d = ad_target (at_data u_att) -> ad_source d = ad_source (at_data u_att).
Proof. apply single_sourceb_spec. vm_compute. reflexivity. Qed.
Lemma w_single : forall v d, cast ([] ++ w5.2 ++ [w_blk]) v d ->
  ad_target d = ad_target (at_data w_att) -> ad_source d = ad_source (at_data w_att).
Proof. apply single_sourceb_spec. vm_compute. reflexivity. Qed.
Lemma uw_conflict :
  (cp_slot (ad_source (at_data u_att)), cp_root (ad_source (at_data u_att))) ∉ i_entries ([] ++ w5.2) /\
  (cp_slot (ad_source (at_data w_att)), cp_root (ad_source (at_data w_att))) ∉ i_entries ([] ++ u2.2).
Proof. split; cbn [app]; apply not_entry; vm_compute; reflexivity. Qed.
(** Both chains continue, so both checkpoints are finalized. *)
Definition finalizesb (s : State) (b : Block) (c : Checkpoint) : bool :=
  match j_stf s b with
  | Ok s' => (cp_root (s_finalized s') =? cp_root c) && (cp_slot (s_finalized s') =? cp_slot c)
  | _ => false
  end.
Lemma finalizesb_spec s b c :
  finalizesb s b c = true -> exists s', j_stf s b = Ok s' /\ s_finalized s' = c.
Proof.
  unfold finalizesb. destruct (j_stf s b) as [s'| |]; [|done..].
  intros [E1%N.eqb_eq E2%N.eqb_eq]%andb_true_iff. exists s'. split; [reflexivity|].
  destruct (s_finalized s'), c. cbn in *. congruence.
Qed.
Lemma u_finalize : exists s, j_stf u2.1 u_blk = Ok s /\ s_finalized s = ad_source (at_data u_att).
Proof. apply finalizesb_spec. vm_compute. reflexivity. Qed.
Lemma w_finalize : exists s, j_stf w5.1 w_blk = Ok s /\ s_finalized s = ad_source (at_data w_att).
Proof. apply finalizesb_spec. vm_compute. reflexivity. Qed.

(** *** Two chains justifying different blocks of one slot *)
Definition v1 := step g0 1 (fun _ => [vote g0 g0]).
Definition v2 := step v1 2 (fun _ => [vote g0 v1]).
Lemma uv_justified :
  i_chain u2.1 u2.2 /\ justified_checkpoint u2.1 (tip u1) /\
  i_chain v2.1 v2.2 /\ justified_checkpoint v2.1 (tip v1) /\
  cp_slot (tip u1) = cp_slot (tip v1) /\ tip u1 <> tip v1.
Proof.
  split; [repeat apply step_chain; exact g0_chain|].
  split; [unfold justified_checkpoint, on_chain; repeat split; vm_compute; done|].
  split; [repeat apply step_chain; exact g0_chain|].
  split; [unfold justified_checkpoint, on_chain; repeat split; vm_compute; done|].
  split; [vm_compute; done|].
  intros E%(f_equal cp_root). apply N.eqb_eq in E. vm_compute in E. done.
Qed.
