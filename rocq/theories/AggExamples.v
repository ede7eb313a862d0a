(** Concrete aggregations. *)
From Verif Require Export AggSound BuilderExamples.
From stdpp Require Import sorting.
Local Open Scope N_scope.

(** *** An environment with sound and complete provers *)
(** An aggregate's bytes are its message; a block proof's are its first message,
    plus one, when that occurs once. *)
Definition once (m : H256) (l : list H256) : bool := negb (bool_decide (m ∈ l)).
Definition xa_bytes (l : list H256) : N :=
  match l with m :: l' => if once m l' then m + 1 else 0 | [] => 0 end.
Definition xa : Env :=
  mkEnv i_state i_header toy_body i_data
    (fun k => k <? 1000) (fun s => s <? 1000) (fun k _ _ s => s =? k) (fun p _ msg _ => p =? msg)
    (fun p _ msgs => p =? xa_bytes (map fst msgs)).
Definition xav : Prover :=
  mkProver (fun _ msg _ => Some msg) (fun vid _ _ => Some (vid + 100)) (fun _ _ root _ => Some root)
           (fun l => Some (xa_bytes (map snd l))).
Definition xav2 : Prover2 :=
  mkProver2 (fun _ _ _ msg _ => Some msg) (fun p _ msg => if p =? msg + 1 then Some msg else None).

Lemma xa_inj : inj_data xa.
Proof. exact i_data_inj. Qed.
Lemma xa_good : good_hash (e_header xa).
Proof. exact i_header_good. Qed.
Lemma xav_sound : sound_prover xa xav xav2.
Proof.
  split.
  - intros vals l raw bits msg slot bytes _ _ _ _ _ [= <-]. apply N.eqb_refl.
  - intros vals l bits msg slot bytes _ _ [= <-]. apply N.eqb_refl.
  - intros bytes keylists msgs msg bytes' Hv Hl Hs. cbn in Hs. destruct (N.eqb_spec bytes (msg + 1)) as [->|]; [|done].
    injection Hs as <-. cbn in Hv. apply N.eqb_eq in Hv.
    destruct msgs as [|[m slot] msgs]; [cbn in Hv; lia|]. cbn in Hv. destruct (once m (map fst msgs)) eqn:Ho; [|lia].
    assert (m = msg) as -> by lia. destruct keylists as [|ks keylists]; [done|].
    exists 0%nat, ks, slot. split_and!; [done|done| |apply N.eqb_refl].
    intros [|j] slot' Hj; [done|]. cbn in Hj. unfold once in Ho. apply negb_true_iff, bool_decide_eq_false in Ho.
    exfalso. apply Ho. apply elem_of_map. exists (msg, slot'). split; [done|]. by eapply elem_of_list_lookup_2.
Qed.
Lemma xav_complete : complete_prover xa xav.
Proof.
  split.
  - intros vals l bits msg slot _ _ _. exists msg. split; [done|]. apply N.eqb_refl.
  - intros parts msgs Hf. eexists. split; [done|]. cbn. apply N.eqb_eq. f_equal.
    induction Hf as [|x m parts msgs H _ IH]; cbn; [done|]. cbn in H. apply N.eqb_eq in H. by rewrite H, IH.
Qed.

(** *** Two signatures for B1 are aggregated; B2 then brings an overlapping aggregate *)
Definition xa_n0 : Node := x_start xa xp_gen.
Definition xa_g_cp : Checkpoint := mkCp (db_head (nd_db xa_n0)) 0.
Definition xa_b1 := x_block xa (stored_anchor i_state xp_gen) 1 [].
Definition xa_d1 : AttestationData := at_data (x_vote [] 1 xa_g_cp (x_cp xa xa_b1)).
Definition xa_b2 := x_block xa xa_b1.2 2 [mkAtt [false; true; true] xa_d1].
Definition xa_sb (x : Block * State) : SignedBlock :=
  mkSB x.1 (xa_bytes (map (fun a => e_data xa (at_data a)) (b_atts x.1) ++ [x_root xa x])).
Definition xa_key (v : N) : N := v_att_key (nth (N.to_nat v) xp_vals (mkVal 0 0 0)).
Definition xa_es : list node_event :=
  [ev_tick (x_at 2 1) false; ev_block (xa_sb xa_b1);
   ev_attestation (mkSA 0 xa_d1 (xa_key 0)) true; ev_attestation (mkSA 1 xa_d1 (xa_key 1)) true].
Definition xa_n1 : Node := x_node xa xa_n0 xa_es.
Definition x_id (l : list (N * (N * N))) : list (N * (N * N)) := l.
Definition xa_groups : list (H256 * AttestationData * list (N * N)) :=
  map (fun e : H256 * GossipEntry => (e.1, ge_data e.2, map_to_list (ge_sigs e.2))) (map_to_list (bf_data (nd_gossip xa_n1))).
Definition x_session (E : Env) (n : Node) groups keys (cur : N) (k : nat) : list Job :=
  match snapshot_aggregation_inputs E x_id n groups keys cur k with Ok js => js | _ => [] end.
Definition x_result (E : Env) (P2 : Prover2) (js : list Job) : option (AttestationData * Proof_ * list N * list (N * H256)) :=
  match js with j :: _ => match aggregate_job E P2 j with Ok (Some x) => Some x | _ => None end | _ => None end.
Definition xa_jobs : list Job := x_session xa xa_n1 xa_groups [] 1 2.
Definition xa_result := x_result xa xav2 xa_jobs.
Lemma own_session E P P2 gt vals n groups keys cur k d p ps del n' :
  own_reachable E P P2 gt vals n -> in_some_order n groups keys ->
  x_result E P2 (x_session E n groups keys cur k) = Some (d, p, ps, del) ->
  apply_aggregated_group E n d p del = Ok n' -> own_reachable E P P2 gt vals n'.
Proof.
  intros Hn Ho Hr Ha. unfold x_session in Hr.
  destruct (snapshot_aggregation_inputs E x_id n groups keys cur k) as [js| |] eqn:Hs; [|done..].
  destruct js as [|j js]; [done|]. cbn in Hr. destruct (aggregate_job E P2 j) as [[x|]| |] eqn:Hj; [|done..].
  injection Hr as ->.
  eapply (or_aggregate _ _ _ _ _ n n x_id); [done|done|intros l; reflexivity|done|exact Hs|left|exact Hj|exact Ha].
Qed.
Definition xa_n2 : Node :=
  match xa_result with
  | Some (d, p, ps, del) => match apply_aggregated_group xa xa_n1 d p del with Ok n => n | _ => xa_n1 end
  | None => xa_n1
  end.
Definition xa_n3 : Node := match on_block xa xa_n2 (xa_sb xa_b2) with Ok n => n | _ => xa_n2 end.
Definition xa_recovered : list (AttestationData * Proof_) :=
  match reaggregate_from_block xa xav xav2 xa_n3 (xa_sb xa_b2) with Ok l => l | _ => [] end.
Definition xa_n4 : Node := match insert_new_batch xa xa_n3 xa_recovered with Ok n => n | _ => xa_n3 end.

Lemma xa_job_shape :
  map (fun j => (jb_raw_ids j, length (jb_children j), ad_slot (jb_data j))) xa_jobs = [([0; 1], 0%nat, 1)].
Proof. vm_compute. reflexivity. Qed.
Lemma xa_result_shape : match xa_result with Some (_, p, ps, _) => (pr_bits p, ps) | None => ([], []) end = ([true; true], [0; 1]).
Proof. vm_compute. reflexivity. Qed.
Lemma xa_recovered_shape : map (fun x => (ad_slot x.1, pr_bits x.2)) xa_recovered = [(1, [true; true; true])].
Proof. vm_compute. reflexivity. Qed.
Lemma xa_choice_shape : map (fun c => (ca_idx c, ca_new c)) (select_candidates xa xa_n3 (b_atts xa_b2.1)) = [(0%nat, 1)].
Proof. vm_compute. reflexivity. Qed.

Lemma xa_start : own_reachable xa xav xav2 1000 xp_vals xa_n0.
Proof.
  apply (or_start _ _ _ _ _ xp_gen); [exists xp_gen, []; split; [constructor|by left]|].
  apply x_start_ok. vm_compute. reflexivity.
Qed.
Lemma own_events E P P2 gt vals n es n' :
  own_reachable E P P2 gt vals n -> node_run E n es n' ->
  Forall (fun e => match e with ev_local _ _ => False | _ => True end) es -> own_reachable E P P2 gt vals n'.
Proof.
  intros Ho Hr. induction Hr as [|es n1 e n2 Hr IH Hs]; intros Hf; [done|].
  apply Forall_app in Hf as [Hf He]. eapply or_event; [by apply IH|by inversion He|done].
Qed.
Lemma xa_own1 : own_reachable xa xav xav2 1000 xp_vals xa_n1.
Proof.
  eapply own_events; [exact xa_start|apply x_node_run; vm_compute; reflexivity|]. repeat constructor.
Qed.
Lemma xa_order : in_some_order xa_n1 xa_groups [].
Proof.
  split.
  - eexists. split; [reflexivity|]. unfold xa_groups.
    generalize (map_to_list (bf_data (nd_gossip xa_n1))). induction l as [|e l IH]; cbn; constructor; [done|exact IH].
  - assert (bool_decide (bf_data (nd_new xa_n1) = ∅) = true) as H by (vm_compute; reflexivity).
    apply bool_decide_eq_true in H. rewrite H, map_to_list_empty. done.
Qed.
Lemma xa_own2 : own_reachable xa xav xav2 1000 xp_vals xa_n2.
Proof.
  assert (match xa_result with
          | Some (d, p, ps, del) => match apply_aggregated_group xa xa_n1 d p del with Ok _ => true | _ => false end
          | None => false end = true) as H by (vm_compute; reflexivity).
  unfold xa_n2. destruct xa_result as [[[[d p] ps] del]|] eqn:Hr; [|done].
  destruct (apply_aggregated_group xa xa_n1 d p del) as [n| |] eqn:Hn; [|done..].
  exact (own_session _ _ _ _ _ _ _ _ _ _ _ _ _ _ _ xa_own1 xa_order Hr Hn).
Qed.
Lemma xa_fresh : has_state (tab xa_n2) (block_root (e_header xa) (e_body xa) (sb_block (xa_sb xa_b2))) = false.
Proof. vm_compute. reflexivity. Qed.
Lemma xa_import : on_block xa xa_n2 (xa_sb xa_b2) = Ok xa_n3.
Proof.
  assert (is_ok (on_block xa xa_n2 (xa_sb xa_b2)) = true) as H by (vm_compute; reflexivity).
  unfold xa_n3. by destruct (on_block xa xa_n2 (xa_sb xa_b2)).
Qed.
Lemma xa_reagg : reaggregate_from_block xa xav xav2 xa_n3 (xa_sb xa_b2) = Ok xa_recovered.
Proof.
  assert (is_ok (reaggregate_from_block xa xav xav2 xa_n3 (xa_sb xa_b2)) = true) as H by (vm_compute; reflexivity).
  unfold xa_recovered. by destruct (reaggregate_from_block xa xav xav2 xa_n3 (xa_sb xa_b2)).
Qed.
Lemma xa_own4 : own_reachable xa xav xav2 1000 xp_vals xa_n4.
Proof.
  assert (is_ok (insert_new_batch xa xa_n3 xa_recovered) = true) as H by (vm_compute; reflexivity).
  unfold xa_n4. destruct (insert_new_batch xa xa_n3 xa_recovered) as [n| |] eqn:Hn; [|done..].
  eapply or_reaggregate; [exact xa_own2|exact xa_fresh|exact xa_import|exact xa_reagg|exact Hn].
Qed.
(** Slot 3's proposer packs the recovered votes. *)
Definition xa_n5 : Node := match get_proposal_head xa xa_n4 3 with Ok x => x.1 | _ => xa_n4 end.
Lemma xa_prepare : exists h, get_proposal_head xa xa_n4 3 = Ok (xa_n5, h) /\ has_slot (tab xa_n5) h 2.
Proof.
  assert (match get_proposal_head xa xa_n4 3 with
          | Ok (n, h) => match t_headers (tab n) !! h with Some hd => h_slot hd =? 2 | None => false end
          | _ => false end = true) as H by (vm_compute; reflexivity).
  unfold xa_n5. destruct (get_proposal_head xa xa_n4 3) as [[n h]| |]; [|done|done].
  exists h. split; [done|]. cbn. destruct (t_headers (tab n) !! h) as [hd|] eqn:Hh; [|done].
  exists hd. split; [done|]. by apply N.eqb_eq.
Qed.
Lemma xa_can_sign : can_sign xa xav 3 (v_prop_key (nth 3 xp_vals (mkVal 0 0 0))).
Proof.
  split; [vm_compute; reflexivity|]. intros slot root. exists 103, root. split_and!; [done|done|done|]. apply N.eqb_refl.
Qed.
Definition xa_built : option (list Bits) :=
  match produce_block xa xav x_iter xa_n5 3 3 (map_to_list (bf_data (nd_known xa_n5))) (mkPC true 8) with
  | Ok (b, _, _) => Some (map at_bits (b_atts b)) | _ => None end.
Lemma xa_built_shape : xa_built = Some [[true; true; true]].
Proof. vm_compute. reflexivity. Qed.

(** *** The choice among five attestations: one is dropped, one has an old target *)
Definition xc_att (bits : Bits) (slot : N) : AggAtt := mkAtt bits (mkAD slot (mkCp 5 slot) (mkCp 5 slot) (mkCp 0 0)).
Definition xc_atts : list AggAtt :=
  [xc_att [true] 1; xc_att [true; true] 2; xc_att [true; true; true; true] 0; xc_att [true; false] 3;
   xc_att [true; true; true] 4; xc_att [true] 5; xc_att [] 6].
Lemma xc_choice : map (fun c => (ca_idx c, ca_new c)) (select_candidates xa xa_n0 xc_atts) = [(4%nat, 3); (1%nat, 2); (0%nat, 1); (3%nat, 1)].
Proof. vm_compute. reflexivity. Qed.

(** *** Jobs with children *)
Definition xj_new : list Proof_ := [mkProof [false; true; true] 1; mkProof [true; true] 2].
Definition xj_known : list Proof_ := [mkProof [false; false; true; true] 3].
Definition xj (sigs : list (N * N)) new known : option (list (list N * N) * list N * list N) :=
  match resolve_job xa x_id xp_vals xa_d1 sigs new known with
  | Ok (Some j) => Some (jb_children j, jb_child_ids j, jb_raw_ids j) | _ => None end.
Lemma xj_one : xj [(0, xa_key 0)] xj_new xj_known = Some ([([xa_key 1; xa_key 2], 1); ([xa_key 2; xa_key 3], 3)], [1; 2; 2; 3], [0]).
Proof. vm_compute. reflexivity. Qed.
Lemma xj_few : xj [(0, xa_key 0)] [] [] = None /\ xj [] xj_new [] <> None /\ xj [] [mkProof [true] 1] [] = None.
Proof. vm_compute. repeat split. discriminate. Qed.

(** Provers that never fail. *)
Definition xav3 : Prover2 := mkProver2 (fun _ _ _ msg _ => Some msg) (fun _ _ msg => Some msg).
Lemma xav_never : never_fails xav xav3.
Proof. by split. Qed.
Lemma xa_parent : exists s, read_state (tab xa_n3) (b_parent (sb_block (xa_sb xa_b2))) = Ok (Some s).
Proof.
  assert (match read_state (tab xa_n3) (b_parent (sb_block (xa_sb xa_b2))) with Ok (Some _) => true | _ => false end = true) as H
    by (vm_compute; reflexivity).
  destruct (read_state (tab xa_n3) (b_parent (sb_block (xa_sb xa_b2)))) as [[s|]| |]; [by exists s|done..].
Qed.
