(** Concrete proposals. *)
From Verif Require Export BuilderNode NodeExamples.
From stdpp Require Import countable.
Local Open Scope N_scope.

(** *** An environment with injective data roots and a prover for it *)
Definition i_data (a : AttestationData) : H256 := N.pos (encode (att_code (mkAtt [] a))).
Lemma i_data_inj a a' : i_data a = i_data a' -> a = a'.
Proof.
  unfold i_data. intros [= H]. apply (inj encode) in H. apply att_code_inj in H. by injection H.
Qed.
Definition xp : Env :=
  mkEnv i_state i_header toy_body i_data
    (fun k => k <? 1000) (fun s => s <? 1000) (fun k _ _ s => s =? k) (fun p _ _ _ => p =? 7)
    (fun p _ _ => p =? 7).
Definition xpv : Prover :=
  mkProver (fun l _ _ => if forallb (fun x => x.2 =? 7) l then Some 7 else None)
           (fun vid _ _ => Some (vid + 100)) (fun key sig _ _ => if sig <? 1000 then Some 7 else None)
           (fun l => if forallb (fun x => x.2 =? 7) l then Some 7 else None).
Definition x_iter (d : AttestationData) (k : nat) (l : list nat) : list nat := rev l.

Lemma x_iter_order d : an_order (x_iter d).
Proof. intros k l. symmetry. apply Permutation_rev. Qed.
Lemma xp_inj : inj_data xp.
Proof. exact i_data_inj. Qed.
Lemma xp_good : good_hash (e_header xp).
Proof. exact i_header_good. Qed.
Lemma xpv_complete : complete_prover xp xpv.
Proof.
  split.
  - intros vals l bits msg slot _ _ Hl. exists 7. split; [|done]. cbn.
    assert (forallb (fun x : list N * N => x.2 =? 7) (map (fun p => (keys_of vals (pr_bits p), pr_bytes p)) l) = true) as ->; [|done].
    apply forallb_forall. intros x Hx. apply in_map_iff in Hx as (p & <- & Hp). apply elem_of_list_In in Hp. by apply Hl.
  - intros parts msgs Hf. exists 7. split; [|done]. cbn.
    assert (forallb (fun x : list N * N => x.2 =? 7) parts = true) as ->; [|done].
    induction Hf as [|x m parts msgs H _ IH]; cbn; [done|]. cbn in H. by rewrite H, IH.
Qed.

(** *** Block B1, then votes for it by two overlapping aggregates, and a later vote *)
Definition xp_vals : list Validator := toy_vals 4.
Definition xp_gen : State := genesis toy_body 1000 xp_vals.
Definition xp_n0 : Node := x_start xp xp_gen.
Definition xp_g_cp : Checkpoint := mkCp (db_head (nd_db xp_n0)) 0.
Definition xpb1 := x_block xp (stored_anchor i_state xp_gen) 1 [].
Definition xp_d1 : AttestationData := at_data (x_vote [] 1 xp_g_cp (x_cp xp xpb1)).
Definition xp_d2 : AttestationData := at_data (x_vote [] 2 xp_g_cp (x_cp xp xpb1)).
Definition xp_es : list node_event :=
  [ev_tick (x_at 2 1) false; ev_block (x_sb xpb1);
   ev_aggregate (mkSAgg xp_d1 (mkProof [true; true] 7));
   ev_aggregate (mkSAgg xp_d1 (mkProof [false; true; true] 7));
   ev_local [(xp_d2, mkProof [false; false; false; true] 7)] []].
Definition xp_n1 : Node := x_node xp xp_n0 xp_es.
(** Preparing the proposal of slot 3 accepts the votes. *)
Definition xp_n2 : Node := match get_proposal_head xp xp_n1 3 with Ok x => x.1 | _ => xp_n1 end.
Definition xp_pool : Payloads := map_to_list (bf_data (nd_known xp_n2)).
Definition xp_built (pc : ProposerConfig) : option (Block * list Proof_ * (Checkpoint * Checkpoint)) :=
  match produce_block xp xpv x_iter xp_n2 3 3 xp_pool pc with Ok x => Some x | _ => None end.

Lemma xp_vals_few : lenN xp_vals <= VALIDATOR_REGISTRY_LIMIT.
Proof. vm_compute. discriminate. Qed.
Lemma xp_sound_vote : sound_proof xp xp_vals xp_d2 (mkProof [false; false; false; true] 7).
Proof.
  split; try (vm_compute; reflexivity).
  - exists 3. vm_compute. reflexivity.
  - intros v Hv. unfold takes_part in Hv. cbn in Hv. assert (lenN xp_vals = 4) as -> by done.
    apply lookup_lt_Some in Hv. cbn in Hv. lia.
  - repeat constructor.
Qed.
Lemma xp_run1 : node_run xp xp_n0 xp_es xp_n1.
Proof. apply x_node_run. vm_compute. reflexivity. Qed.
Lemma xp_reach : reachable_sound xp 1000 xp_vals xp_n1.
Proof.
  exists xp_gen, xp_n0, xp_es. split_and!.
  - exists xp_gen, []. split; [constructor|by left].
  - apply x_start_ok. vm_compute. reflexivity.
  - exact xp_run1.
  - unfold xp_es. repeat apply Forall_cons_2; cbn [sound_event]; try done.
    intros d p Hin. apply elem_of_list_singleton in Hin. injection Hin as -> ->. exact xp_sound_vote.
Qed.
Lemma xp_prepare : exists h, get_proposal_head xp xp_n1 3 = Ok (xp_n2, h) /\ has_slot (tab xp_n2) h 1.
Proof.
  assert (match get_proposal_head xp xp_n1 3 with
          | Ok (n, h) => match t_headers (tab n) !! h with Some hd => h_slot hd =? 1 | None => false end
          | _ => false end = true) as H by (vm_compute; reflexivity).
  unfold xp_n2. destruct (get_proposal_head xp xp_n1 3) as [[n h]| |]; [|done|done].
  exists h. split; [done|]. cbn. destruct (t_headers (tab n) !! h) as [hd|] eqn:Hh; [|done].
  exists hd. split; [done|]. by apply N.eqb_eq.
Qed.

(** With aggregation at the proposer the two overlapping aggregates are combined;
    without it one of them goes into the block. *)
Definition xp_shape (pc : ProposerConfig) : option (list (Bits * N) * list Proof_ * N) :=
  match xp_built pc with
  | Some (b, ps, (j, _)) => Some (map (fun a => (at_bits a, ad_slot (at_data a))) (b_atts b), ps, cp_slot j)
  | None => None
  end.
Lemma xp_shape_agg : xp_shape (mkPC true 8) = Some ([([true; true; true], 1)], [mkProof [true; true; true] 7], 1).
Proof. vm_compute. reflexivity. Qed.
Lemma xp_shape_one : xp_shape (mkPC false 8) = Some ([([true; true], 1)], [mkProof [true; true] 7], 0).
Proof. vm_compute. reflexivity. Qed.
Lemma xp_can_sign : can_sign xp xpv 3 (v_prop_key (nth 3 xp_vals (mkVal 0 0 0))).
Proof.
  split; [vm_compute; reflexivity|]. intros slot root. exists 103, 7. vm_compute. done.
Qed.
Lemma xp_val3 : xp_vals !! N.to_nat 3 = Some (nth 3 xp_vals (mkVal 0 0 0)).
Proof. reflexivity. Qed.
