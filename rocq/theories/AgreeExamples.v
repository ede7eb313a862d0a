(** Nodes that import the same blocks in different orders. *)
From Verif Require Export AgreeProofs NodeExamples.
From stdpp Require Import countable.
Open Scope N_scope.

(** An environment in which all hashes of blocks and votes are injective *)
Definition i_data (d : AttestationData) : N := N.pos (encode (att_code (mkAtt [] d)).2).
Lemma i_data_inj d d' : i_data d = i_data d' -> d = d'.
Proof.
  unfold i_data. intros H. injection H as H. apply (inj encode) in H.
  assert (att_code (mkAtt [] d) = att_code (mkAtt [] d')) as H'.
  { unfold att_code in *. cbn [at_bits at_data snd] in *. by rewrite H. }
  apply att_code_inj in H'. congruence.
Qed.
Definition ye : Env :=
  mkEnv i_state i_header i_body i_data
    (fun k => k <? 1000) (fun s => s <? 1000) (fun k _ _ s => s =? k) (fun p _ _ _ => p =? 7)
    (fun p _ _ => p =? 7).
Lemma ye_good : good_hash (e_header ye).
Proof. exact i_header_good. Qed.

Definition y_gen : State := genesis i_body 1000 x_vals.
Definition y_start : Node := x_start ye y_gen.
Definition y_g : Checkpoint := mkCp (db_head (nd_db y_start)) 0.
Definition y_n0 : Node := x_node ye y_start [ev_tick (x_at 5 0) false].
(** Two blocks of slot 1, each with a child whose votes justify it. *)
Definition y_all : list bool := [true; true; true].
Definition yu1 := x_block ye (stored_anchor i_state y_gen) 1 [].
Definition yu2 := x_block ye yu1.2 2 [x_vote y_all 1 y_g (x_cp ye yu1)].
Definition yv1 := x_block ye (stored_anchor i_state y_gen) 1 [x_vote y_all 0 y_g y_g].
Definition yv2 := x_block ye yv1.2 2 [x_vote y_all 1 y_g (x_cp ye yv1)].

(** Two orders; in the second, the first block has to wait for its parent. *)
Definition y_l1 : list SignedBlock := [x_sb yu1; x_sb yu2; x_sb yv1].
Definition y_l2 : list SignedBlock := [x_sb yu2; x_sb yv1; x_sb yu1; x_sb yu2].
Definition y_n1 : Node := x_node ye y_n0 (map ev_block y_l1).
Definition y_n2 : Node := x_node ye y_n0 (map ev_block y_l2).
(** Both branches, one after the other *)
Definition y_l3 : list SignedBlock := [x_sb yu1; x_sb yu2; x_sb yv1; x_sb yv2].
Definition y_l4 : list SignedBlock := [x_sb yv1; x_sb yv2; x_sb yu1; x_sb yu2].
Definition y_n3 : Node := x_node ye y_n0 (map ev_block y_l3).
Definition y_n4 : Node := x_node ye y_n0 (map ev_block y_l4).

Lemma y_anchor : valid_anchor ye 1000 x_vals y_gen.
Proof. exists y_gen, []. split; [constructor|by left]. Qed.
Lemma y_run0 : run_from ye y_gen y_n0.
Proof.
  exists y_start, [ev_tick (x_at 5 0) false]. split.
  - apply x_start_ok. vm_compute. reflexivity.
  - apply x_node_run. vm_compute. reflexivity.
Qed.
Lemma y_run1 : node_run ye y_n0 (map ev_block y_l1) y_n1.
Proof. apply x_node_run. vm_compute. reflexivity. Qed.
Lemma y_run2 : node_run ye y_n0 (map ev_block y_l2) y_n2.
Proof. apply x_node_run. vm_compute. reflexivity. Qed.
Lemma y_run3 : node_run ye y_n0 (map ev_block y_l3) y_n3.
Proof. apply x_node_run. vm_compute. reflexivity. Qed.
Lemma y_run4 : node_run ye y_n0 (map ev_block y_l4) y_n4.
Proof. apply x_node_run. vm_compute. reflexivity. Qed.
Lemma run_from_app E a n es n' : run_from E a n -> node_run E n es n' -> run_from E a n'.
Proof. intros (n0 & es0 & H1 & H2) H. exists n0, (es0 ++ es). split; [done|]. by eapply run_app_node. Qed.

Definition keys (t : Tables) : list H256 := map fst (map_to_list (t_states t)) ++ map fst (map_to_list (t_diffs t)).
Lemma has_keys t r : has_state t r = true <-> r ∈ keys t.
Proof.
  unfold has_state, keys. rewrite orb_true_iff, !bool_decide_eq_true, elem_of_app.
  assert (forall {A} (m : gmap H256 A), is_Some (m !! r) <-> r ∈ map fst (map_to_list m)) as G.
  { intros A m. rewrite elem_of_list_fmap. split.
    - intros [x Hx]. exists (r, x). split; [done|]. by apply elem_of_map_to_list.
    - intros ([r' x] & -> & Hx). apply elem_of_map_to_list in Hx. by exists x. }
  by rewrite !G.
Qed.
Definition covers (t t' : Tables) : bool := forallb (has_state t') (keys t).
Lemma covers_has t t' r : covers t t' = true -> has_state t r = true -> has_state t' r = true.
Proof.
  unfold covers. rewrite forallb_forall. intros H Hr. apply H. apply has_keys in Hr. by apply elem_of_list_In.
Qed.
Lemma same_has t t' r : covers t t' && covers t' t = true -> has_state t r = has_state t' r.
Proof.
  intros H. apply andb_true_iff in H as [H1 H2].
  pose proof (covers_has _ _ r H1). pose proof (covers_has _ _ r H2).
  destruct (has_state t r), (has_state t' r); try done; [by symmetry; auto|by auto].
Qed.
Lemma y_same12 r : has_state (tab y_n1) r = has_state (tab y_n2) r.
Proof. apply same_has. vm_compute. reflexivity. Qed.
Lemma y_same34 r : has_state (tab y_n3) r = has_state (tab y_n4) r.
Proof. apply same_has. vm_compute. reflexivity. Qed.

Definition cp_eqb (a b : Checkpoint) : bool := (cp_root a =? cp_root b) && (cp_slot a =? cp_slot b).
Lemma cp_eqb_ok a b : cp_eqb a b = true -> a = b.
Proof. unfold cp_eqb. destruct a, b; cbn. intros H. f_equal; lia. Qed.
Lemma cp_eqb_no a b : cp_eqb a b = false -> a <> b.
Proof. unfold cp_eqb. intros H ->. rewrite !N.eqb_refl in H. done. Qed.
Lemma neqb_no (a b : N) : (a =? b) = false -> a <> b.
Proof. by intros ?%N.eqb_neq. Qed.

(** The two nodes see the same and have an up-to-date head. *)
Lemma y_view : same_view y_n1 y_n2.
Proof.
  destruct (import_order_pf ye 1000 x_vals ye_good x_vals_few y_gen y_n0 y_l1 y_n1 y_l2 y_n2
              i_body_inj i_data_inj y_anchor y_run0 y_run1 y_run2 y_same12) as (H1 & H2 & _).
  split; [apply cp_eqb_ok; vm_compute; reflexivity|intros r s _; by rewrite H1|exact H2].
Qed.
Definition settledb (n : Node) : bool := match ghost_head n with Ok h => h =? db_head (nd_db n) | _ => false end.
Lemma settledb_ok n : settledb n = true -> settled n.
Proof. unfold settledb, settled. destruct (ghost_head n) as [h| |]; [|done|done]. intros H. apply N.eqb_eq in H. by rewrite H. Qed.
Lemma y_settled1 : settled y_n1.
Proof. apply settledb_ok. vm_compute. reflexivity. Qed.
Lemma y_settled2 : settled y_n2.
Proof. apply settledb_ok. vm_compute. reflexivity. Qed.
Lemma y_from1 : run_from ye y_gen y_n1.
Proof. exact (run_from_app _ _ _ _ _ y_run0 y_run1). Qed.
Lemma y_from2 : run_from ye y_gen y_n2.
Proof. exact (run_from_app _ _ _ _ _ y_run0 y_run2). Qed.
Lemma y_reach1 : reachable ye 1000 x_vals y_n1.
Proof. exact (run_from_reachable ye 1000 x_vals _ _ y_anchor y_from1). Qed.
Lemma y_reach2 : reachable ye 1000 x_vals y_n2.
Proof. exact (run_from_reachable ye 1000 x_vals _ _ y_anchor y_from2). Qed.
(** The head is the justified block's child, not another block. *)
Lemma y_head : db_head (nd_db y_n1) = x_root ye yu2 /\ cp_slot (db_just (nd_db y_n1)) = 1 /\
  has_state (tab y_n1) (x_root ye yv1) = true.
Proof. split_and!; vm_compute; reflexivity. Qed.

(** With both branches, whose voters all voted twice, the first one wins. *)
Lemma y_differ :
  db_just (nd_db y_n3) <> db_just (nd_db y_n4) /\ db_head (nd_db y_n3) <> db_head (nd_db y_n4) /\
  db_head (nd_db y_n3) = x_root ye yu2 /\ db_head (nd_db y_n4) = x_root ye yv2.
Proof.
  split_and!; [apply cp_eqb_no; vm_compute; reflexivity|apply neqb_no; vm_compute; reflexivity|vm_compute; reflexivity|vm_compute; reflexivity].
Qed.

Lemma y_new_same v : fc_new (nd_votes y_n1) !! v = fc_new (nd_votes y_n2) !! v.
Proof.
  assert (fc_new (nd_votes y_n1) = ∅) as -> by (vm_compute; reflexivity).
  assert (fc_new (nd_votes y_n2) = ∅) as -> by (vm_compute; reflexivity). done.
Qed.

(** What both vote at slot 5, and both safe targets *)
Definition y_att : AttestationData :=
  match produce_attestation_data (nd_db y_n1) 5 with Ok d => d | _ => mkAD 0 y_g y_g y_g end.
Lemma y_vote :
  produce_attestation_data (nd_db y_n1) 5 = Ok y_att /\ is_ok (produce_attestation_data (nd_db y_n2) 5) = true /\
  cp_root (ad_head y_att) = x_root ye yu2 /\ ad_slot y_att = 5.
Proof. split_and!; vm_compute; reflexivity. Qed.
Lemma y_vote_hyps :
  db_head (nd_db y_n1) = db_head (nd_db y_n2) /\ db_safe (nd_db y_n1) = db_safe (nd_db y_n2) /\
  db_just (nd_db y_n1) = db_just (nd_db y_n2) /\ db_fin (nd_db y_n1) = db_fin (nd_db y_n2) /\
  read_state (tab y_n1) (db_head (nd_db y_n1)) = read_state (tab y_n2) (db_head (nd_db y_n2)).
Proof.
  assert (db_head (nd_db y_n1) = db_head (nd_db y_n2)) as Hh by (apply N.eqb_eq; vm_compute; reflexivity).
  split; [exact Hh|]. split; [apply N.eqb_eq; vm_compute; reflexivity|].
  split; [apply cp_eqb_ok; vm_compute; reflexivity|]. split; [apply cp_eqb_ok; vm_compute; reflexivity|].
  rewrite <- Hh.
  exact (proj1 (import_order_pf ye 1000 x_vals ye_good x_vals_few y_gen y_n0 y_l1 y_n1 y_l2 y_n2
              i_body_inj i_data_inj y_anchor y_run0 y_run1 y_run2 y_same12) _).
Qed.
