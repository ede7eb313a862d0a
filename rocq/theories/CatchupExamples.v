(** Concrete cases for C85. *)
From Verif Require Export CatchupPeer ActorExamples.

(** The actor of ActorExamples.v at slot 40 knows the genesis block only; the peer has
    B1, B2 and B3.  The actor hears of B3. *)
Definition zc_old : list SignedBlock := [x_sb zb1; x_sb zb2].
Definition zc_peer : Node := ac_node za2.
Definition zc_ws : list (World * bool) :=
  [(xw (x_at 40 1) true, true); (xw (x_at 40 2) false, false); (xw (x_at 40 2) true, false)].

Lemma zc_in sb : sb ∈ zc_old ++ [x_sb zb3] -> sb ∈ z_bs.
Proof.
  intros H. apply elem_of_cons in H as [->|H]; [by right; right; left|]. apply elem_of_cons in H as [->|H]; [by right; left|].
  apply elem_of_list_singleton in H as ->. left.
Qed.
Lemma zc_out sb : sb ∈ z_bs -> sb ∈ zc_old ++ [x_sb zb3].
Proof.
  intros H. apply elem_of_cons in H as [->|H]; [by right; right; left|]. apply elem_of_cons in H as [->|H]; [by right; left|].
  apply elem_of_list_singleton in H as ->. left.
Qed.
Lemma zc_valid : valid_tree ze (ac_node za1) (zc_old ++ [x_sb zb3]) z_post.
Proof.
  intros sb H. destruct (z_valid sb (zc_in _ H)) as (p & Hp & [Hs|(q & Hq & Hr)]); exists p; (split; [done|]); [by left|].
  right. exists q. split; [by apply zc_out|done].
Qed.
Lemma zc_chained : chained ze (zc_old ++ [x_sb zb3]).
Proof.
  intros [|[|[|i]]] x y H1 H2; cbn [lookup list_lookup zc_old app] in H1, H2.
  - apply (inj Some) in H1 as <-. apply (inj Some) in H2 as <-. vm_compute. reflexivity.
  - apply (inj Some) in H1 as <-. apply (inj Some) in H2 as <-. vm_compute. reflexivity.
  - discriminate.
  - discriminate.
Qed.
Lemma zc_first sb : head (zc_old ++ [x_sb zb3]) = Some sb -> has_state (tab (ac_node za1)) (b_parent (sb_block sb)) = true.
Proof. intros H. apply (inj Some) in H as <-. vm_compute. reflexivity. Qed.
Lemma zc_final r s sb : read_state (tab (ac_node za1)) r = Ok (Some s) -> sb ∈ zc_old ++ [x_sb zb3] ->
  cp_slot (s_finalized s) < b_slot (sb_block sb).
Proof.
  intros Hs Hsb.
  pose proof (actor_reach_node ze xc 1000 x_vals za1 za1_reach) as Hr.
  destruct (decide (b_slot (sb_block sb) <= cp_slot (s_finalized s))) as [Hle|]; [|lia]. exfalso.
  assert (forall m, strict_anc (tab (ac_node za1)) 5 m -> False) as Hno.
  { assert (forallb (fun x : H256 * Header => negb (h_parent x.2 =? 5)) (map_to_list (t_headers (tab (ac_node za1)))) = true) as Hb
      by (vm_compute; reflexivity).
    rewrite forallb_forall in Hb. intros m Hm. induction Hm as [c (h & Hh & Hp)|c q H Hm IH]; [|exact IH].
    apply elem_of_map_to_list in Hh. apply elem_of_list_In in Hh. specialize (Hb _ Hh). cbn [snd] in Hb. rewrite Hp in Hb. discriminate Hb. }
  apply (Hno r). refine (fin_b_sound ze 1000 x_vals _ 5 (b_slot (sb_block sb)) ze_good x_vals_few Hr _ r s Hs Hle).
  revert sb Hsb Hle. intros sb Hsb _. apply zc_in in Hsb. revert sb Hsb. apply z_elem; vm_compute; reflexivity.
Qed.
Lemma zc_has sb : sb ∈ zc_old ++ [x_sb zb3] -> get_signed_block (e_body ze) (tab zc_peer) (block_root (e_header ze) (e_body ze) (sb_block sb)) = Some sb.
Proof. intros H. apply zc_in in H. revert sb H. apply z_elem; vm_compute; reflexivity. Qed.
Lemma zc_fine : Forall (fun x => world_ok x.1 /\ wall_fits x.1 (ac_node za1) /\ forall n s v, w_build x.1 n s v = None) zc_ws.
Proof.
  apply Forall_forall. intros x H.
  assert (forall now agg, wall_fits (xw now agg) (ac_node za1) ->
    world_ok (xw now agg) /\ wall_fits (xw now agg) (ac_node za1) /\ forall n s v, w_build (xw now agg) n s v = None) as Hw.
  { intros now agg Hf. split; [apply xw_ok|]. split; [exact Hf|reflexivity]. }
  unfold zc_ws in H. apply elem_of_cons in H as [->|H]; [apply Hw; vm_compute; reflexivity|].
  apply elem_of_cons in H as [->|H]; [apply Hw; vm_compute; reflexivity|].
  apply elem_of_list_singleton in H as ->. apply Hw. vm_compute. reflexivity.
Qed.
Lemma zc_pend : ac_pend za1 = ∅.
Proof. vm_compute. reflexivity. Qed.
Lemma zc_clock : clock_fits (ac_node za1).
Proof. vm_compute. reflexivity. Qed.
(** What the exchange asks for and the head slots before and after. *)
Definition zc_result : option (list H256 * nat * bool * bool) :=
  match exchange ze xc zc_peer zc_ws za1 [x_sb zb3] with
  | Ok (a, rs, q) => Some (rs, length q, bool_decide (db_head (nd_db (ac_node za1)) = db_head (nd_db z_n0)),
                           bool_decide (db_head (nd_db (ac_node a)) = x_root ze zb3))
  | _ => None
  end.
Lemma zc_runs : zc_result = Some ([x_root ze zb2; x_root ze zb1], 0%nat, true, true).
Proof. vm_compute. reflexivity. Qed.
Lemma zc_peer_reach : reachable ze 1000 x_vals zc_peer.
Proof. exact (actor_reach_node ze xc 1000 x_vals za2 za2_reach). Qed.
Lemma zc_peer_has sb : sb ∈ zc_old ++ [x_sb zb3] ->
  get_signed_block (e_body ze) (tab zc_peer) (block_root (e_header ze) (e_body ze) (sb_block sb)) = Some sb /\
  has_state (tab zc_peer) (block_root (e_header ze) (e_body ze) (sb_block sb)) = true.
Proof. intros H. split; [by apply zc_has|]. apply zc_in in H. revert sb H. apply z_elem; vm_compute; reflexivity. Qed.
Lemma zc_base sb : head (zc_old ++ [x_sb zb3]) = Some sb ->
  read_state (tab zc_peer) (b_parent (sb_block sb)) = Ok (Some (stored_anchor (e_state ze) z_gen)) /\
  read_state (tab (ac_node za1)) (b_parent (sb_block sb)) = Ok (Some (stored_anchor (e_state ze) z_gen)).
Proof. intros H. apply (inj Some) in H as <-. split; vm_compute; reflexivity. Qed.
