(** Concrete start-ups. *)
From Verif Require Export StartupNode NodeExamples.

Definition xg : GenesisConfig := mkGC 1000 (map (fun v => (v_att_key v, v_prop_key v)) x_vals).
Lemma xg_vals : gc_validators xg = x_vals.
Proof. vm_compute. reflexivity. Qed.

(** What the node that finalized B1 serves. *)
Definition xs_state : State := match serve_finalized_state x_n1 with Ok s => s | _ => x_gen end.
Definition xs_block : SignedBlock := default (x_sb xb3) (serve_finalized_block xe x_n1).
(** Its answers in three situations: unreachable; the block endpoint already ahead
    in the first attempt; fine. *)
Definition xs_down : nat -> option State * option SignedBlock := fun _ => (None, Some xs_block).
Definition xs_race : nat -> option State * option SignedBlock :=
  fun k => (Some xs_state, Some (match k with O => x_sb xb2 | _ => xs_block end)).
(** Two URLs, the first never answers, the second from the second round on. *)
Definition xs_net : Answers := fun r p =>
  match p with O => xs_down | _ => match r with O => xs_down | _ => xs_race end end.

Definition x_ok_eq (r : Disk * res CkError Node) (h : H256) (slot : N) : bool :=
  match r with
  | (DChain d, Ok n) => (db_head (nd_db n) =? h) && (cp_slot (db_fin d) =? slot) && bool_decide (db_head d = h)
  | _ => false
  end.
Lemma xs_start : x_ok_eq (fetch_initial_state xe xg 2 (x_at 2 0) xs_net (DNew empty_tables)) (x_root xe xb1) 1 = true.
Proof. vm_compute. reflexivity. Qed.
Lemma xs_served : serve_finalized_state x_n1 = Ok xs_state /\ serve_finalized_block xe x_n1 = Some xs_block /\
  sb_block xs_block = xb1.1 /\ s_slot xs_state = 1.
Proof.
  assert (match serve_finalized_state x_n1 with Ok _ => true | _ => false end = true) as H1 by (vm_compute; reflexivity).
  assert (match serve_finalized_block xe x_n1 with Some b => bool_decide (sb_block b = xb1.1) | _ => false end = true)
    as H2 by (vm_compute; reflexivity).
  assert (s_slot xs_state = 1) as H3 by (vm_compute; reflexivity).
  unfold xs_state, xs_block in *. destruct (serve_finalized_state x_n1); [|done|done].
  destruct (serve_finalized_block xe x_n1); [|done]. by apply bool_decide_eq_true in H2.
Qed.
Lemma xs_yield : first_yield xe xg 2 xs_net (xs_state, xs_block).
Proof.
  apply C51_urls_ok_pf.
  assert (match fetch_anchor_with_retry xe (gc_time xg) (gc_validators xg) xs_net 2 with
          | Ok (s, sb) => bool_decide (s = xs_state) && bool_decide (sb_block sb = sb_block xs_block) && (sb_proof sb =? sb_proof xs_block)
          | _ => false end = true) as H by (vm_compute; reflexivity).
  destruct (fetch_anchor_with_retry _ _ _ _ _) as [[s [b p]]| |]; [|done|done].
  apply andb_true_iff in H as [[H1 H2]%andb_true_iff H3]. apply bool_decide_eq_true in H1, H2. apply N.eqb_eq in H3.
  cbn in *. subst. by destruct xs_block.
Qed.

(** A node left behind on a fork block, the only one it knows. *)
Definition xq := x_block xe x_g 2 [].
Definition x_old := x_node xe x_n0 [ev_tick (x_at 2 1) false; ev_block (x_sb xq)].
Lemma x_old_run : node_run xe x_n0 [ev_tick (x_at 2 1) false; ev_block (x_sb xq)] x_old.
Proof. apply x_node_run. vm_compute. reflexivity. Qed.
Lemma x_old_reach : reachable xe 1000 x_vals x_old.
Proof. exists x_gen, x_n0, [ev_tick (x_at 2 1) false; ev_block (x_sb xq)]. split_and!; [exact x_anchor|exact x_started|exact x_old_run]. Qed.
(** Started again 500 slots later with a checkpoint URL. *)
Definition x_again := fetch_initial_state xe xg 2 (x_at 502 0) xs_net (DChain (nd_db x_old)).
Definition x_new : Node := match x_again with (_, Ok n) => n | _ => x_old end.
Lemma x_old_stale : unusable_disk xg (x_at 502 0) (DChain (nd_db x_old)).
Proof.
  exists x_g, 2. split_and!.
  - vm_compute. reflexivity.
  - apply verify_genesis_spec. vm_compute. reflexivity.
  - assert (match t_headers (tab x_old) !! db_head (nd_db x_old) with Some h => h_slot h =? 2 | None => false end = true) as H
      by (vm_compute; reflexivity).
    unfold has_slot, tab in *. destruct (t_headers _ !! _) as [h|]; [|done]. apply N.eqb_eq in H. eauto.
  - vm_compute. intros H. by apply H.
Qed.
Lemma x_again_ok : fetch_initial_state xe xg 2 (x_at 502 0) xs_net (DChain (nd_db x_old)) = (DChain (nd_db x_new), Ok x_new).
Proof.
  destruct (C51_checkpoint_pf xe xg 2 (x_at 502 0) xs_net _ _ ltac:(done) x_old_stale xs_yield) as (d & _ & H).
  unfold x_new, x_again. by rewrite H.
Qed.
(** The new node is anchored on B1 and serves the fork block at slot 2. *)
Lemma x_new_head : db_head (nd_db x_new) = x_root xe xb1.
Proof. vm_compute. reflexivity. Qed.
Lemma x_new_serves : map (fun sb => block_root i_header toy_body (sb_block sb)) (get_signed_blocks_by_slot_range toy_body (tab x_new) 1 2)
  = [x_root xe xb1; x_root xe xq].
Proof. vm_compute. reflexivity. Qed.
Fixpoint x_ancs (k : nat) (t : Tables) (r : H256) : list H256 :=
  match k with
  | O => []
  | S k' => match t_headers t !! r with Some h => r :: x_ancs k' t (h_parent h) | None => [] end
  end.
Lemma x_ancs_sound t a r : ancestor t a r -> forall k, (length (x_ancs k t r) < k)%nat -> a ∈ x_ancs k t r.
Proof.
  induction 1 as [h Hh|r h Hh Hanc IH]; intros [|k] Hk; cbn [x_ancs] in *; rewrite ?Hh in *; cbn in Hk; try lia; [left|].
  right. apply IH. lia.
Qed.
Lemma x_new_fork : ~ ancestor (tab x_new) (x_root xe xq) (db_head (nd_db x_new)).
Proof.
  intros H. apply x_ancs_sound with (k := 5%nat) in H; [|vm_compute; lia].
  assert (existsb (N.eqb (x_root xe xq)) (x_ancs 5 (tab x_new) (db_head (nd_db x_new))) = false) as Hf by (vm_compute; reflexivity).
  apply elem_of_list_In in H. rewrite <- not_true_iff_false in Hf. apply Hf. apply existsb_exists.
  eexists. split; [exact H|apply N.eqb_refl].
Qed.
Lemma xs_net_state r p q s : (xs_net r p q).1 = Some s -> s = xs_state.
Proof.
  unfold xs_net, xs_down, xs_race. destruct p as [|p]; [done|]. destruct r as [|r]; [done|].
  cbn [fst]. intros H. symmetry. exact (Some_inj _ _ H).
Qed.
Lemma xs_net_served r p q s : (xs_net r p q).1 = Some s -> serve_finalized_state x_n1 = Ok s.
Proof. intros H. rewrite (xs_net_state _ _ _ _ H). exact (proj1 xs_served). Qed.
Lemma map_second {A B} (f : A -> B) l r1 r2 : map f l = [r1; r2] -> exists x, x ∈ l /\ f x = r2.
Proof. destruct l as [|x1 [|x2 [|]]]; try done. intros [= _ H]. exists x2. split; [right; left|done]. Qed.
Lemma x_new_serves_fork : exists sb, sb ∈ get_signed_blocks_by_slot_range (e_body xe) (tab x_new) 1 2 /\
  ~ ancestor (tab x_new) (block_root (e_header xe) (e_body xe) (sb_block sb)) (db_head (nd_db x_new)).
Proof.
  destruct (map_second _ _ _ _ x_new_serves) as (sb & Hsb & Hr). exists sb. split; [exact Hsb|].
  intros H. apply x_new_fork. rewrite <- Hr. exact H.
Qed.
Lemma x_again_states : x_ok_eq (fetch_initial_state xe xg 2 (x_at 2 0) xs_net (DNew empty_tables)) (x_root xe xb1) 1 = true /\
  match fetch_initial_state xe xg 1 (x_at 2 0) xs_net (DNew empty_tables) with
  | (DNew _, Err CHttp) => true | _ => false end = true /\
  match fetch_initial_state xe xg 2 (x_at 452 0) xs_net (DChain (nd_db x_old)) with
  | (DChain d, Ok n) => db_head d =? x_root xe xq | _ => false end = true /\
  match fetch_initial_state xe (mkGC 1001 (gc_entries xg)) 2 (x_at 2 0) xs_net (DChain (nd_db x_old)) with
  | (DChain d, Err (CDbGenesis MGenesisTime)) => db_head d =? x_root xe xq | _ => false end = true.
Proof. split_and!; vm_compute; reflexivity. Qed.
