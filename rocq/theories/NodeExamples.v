(** Concrete runs of the node model. *)
From Verif Require Export NodeThms NodeThms6 StorageExamples.
From stdpp Require Import countable.
Local Open Scope N_scope.

(** *** The example block hash is acyclic: a hash is longer than what it hashes *)
Lemma flatten_go_length xs acc :
  (Pos.length acc <= Pos.length (positives_flatten_go xs acc))%nat.
Proof.
  revert acc. induction xs as [|x xs IH]; intros acc; cbn [positives_flatten_go]; [done|].
  etrans; [|apply IH]. rewrite Pos.app_length. cbn. lia.
Qed.
Lemma reverse_go_length p1 p2 : Pos.length (Pos.reverse_go p1 p2) = (Pos.length p1 + Pos.length p2)%nat.
Proof. revert p1. induction p2; intros p1; cbn; [rewrite IHp2; cbn; lia..|lia]. Qed.
Lemma dup_length p : Pos.length (Pos.dup p) = (2 * Pos.length p)%nat.
Proof. induction p; cbn; [lia..|done]. Qed.
Lemma flatten_go_elem xs x acc :
  x ∈ xs -> (Pos.length x < Pos.length (positives_flatten_go xs acc))%nat.
Proof.
  intros Hx. revert acc. induction Hx as [x xs|x y xs Hx IH]; intros acc; cbn [positives_flatten_go]; [|apply IH].
  eapply Nat.lt_le_trans; [|apply flatten_go_length].
  rewrite Pos.app_length. unfold Pos.reverse. rewrite reverse_go_length, dup_length. cbn. lia.
Qed.
Lemma succ_length p : (Pos.length p <= Pos.length (Pos.succ p))%nat.
Proof. induction p; cbn; lia. Qed.
Definition i_rank (r : H256) : N := match r with N0 => 0 | N.pos p => 1 + N.of_nat (Pos.length p) end.
Lemma i_header_acyclic : acyclic_hash i_header.
Proof.
  exists i_rank. intros h. unfold i_header, i_rank at 2.
  assert (Pos.length (encode (h_parent h)) <
    Pos.length (encode [h_slot h; h_proposer h; h_parent h; h_state_root h; h_body_root h]))%nat as H.
  { apply flatten_go_elem. cbn. set_solver. }
  destruct (h_parent h) as [|p]; cbn [i_rank]; [lia|].
  change (encode (N.pos p)) with (Pos.succ p) in H at 1.
  pose proof (succ_length p). lia.
Qed.
Lemma i_header_good : good_hash i_header.
Proof. split; [apply i_header_inj|done]. Qed.

(** *** An environment: signatures are valid when they match a simple rule, so that
    both valid and invalid ones exist *)
Definition x_data (a : AttestationData) : H256 :=
  1 + (ad_slot a + 31 * cp_slot (ad_head a) + 1009 * cp_slot (ad_target a) + 65537 * cp_slot (ad_source a)
       + 3 * cp_root (ad_head a) + 5 * cp_root (ad_target a) + 7 * cp_root (ad_source a)) mod 1000000007.
Definition x_env (body : list AggAtt -> H256) : Env :=
  mkEnv i_state i_header body x_data
    (fun k => k <? 1000) (fun s => s <? 1000) (fun k _ _ s => s =? k) (fun p _ _ _ => p =? 7)
    (fun p _ _ => p =? 7).

Section Run.
  Context (E : Env).
  Fixpoint x_run (n : Node) (es : list node_event) : res unit Node :=
    match es with
    | [] => Ok n
    | e :: es' => let! n' := node_step E n e in x_run n' es'
    end.
  Lemma node_run_app n es1 n1 es2 n2 :
    node_run E n es1 n1 -> node_run E n1 es2 n2 -> node_run E n (es1 ++ es2) n2.
  Proof.
    intros H1 H2. induction H2 as [|es m1 e m2 H IH Hs]; [by rewrite app_nil_r|].
    rewrite app_assoc. by econstructor.
  Qed.
  Lemma x_run_sound es n n' : x_run n es = Ok n' -> node_run E n es n'.
  Proof.
    revert n. induction es as [|e es IH]; intros n; cbn [x_run].
    - intros [= <-]. constructor.
    - intros H. apply rbind_Ok in H as (n1 & H1 & H2). change (e :: es) with ([e] ++ es).
      eapply node_run_app; [|by apply IH]. change [e] with ([] ++ [e]). econstructor; [constructor|done].
  Qed.
  (** The state reached, or the start itself. *)
  Definition x_node (n : Node) (es : list node_event) : Node :=
    match x_run n es with Ok n' => n' | _ => n end.
  Lemma x_node_run n es : is_ok (x_run n es) = true -> node_run E n es (x_node n es).
  Proof. unfold x_node. intros H. apply x_run_sound. by destruct (x_run n es). Qed.
  Definition x_start (a : State) : Node :=
    match from_anchor_state (e_state E) (e_header E) empty_tables a with
    | Ok d => start_node d
    | _ => start_node (mkDb 0 0 0 0 (mkCp 0 0) (mkCp 0 0) empty_tables)
    end.
  Lemma x_start_ok a :
    is_ok (from_anchor_state (e_state E) (e_header E) empty_tables a) = true -> started E a (x_start a).
  Proof.
    unfold x_start. intros H. destruct (from_anchor_state _ _ _ a) as [d| |] eqn:Hi; [|done|done].
    exists d. by left.
  Qed.
  (** Build the block an honest proposer would make on [s]. *)
  Definition x_block (s : State) (slot : N) (atts : list AggAtt) : Block * State :=
    match process_slots (e_state E) s slot with
    | Ok s1 =>
        let b := mkBlock slot (slot mod lenN (s_validators s)) (e_header E (s_header s1)) 0 atts in
        match process_block (e_header E) (e_body E) s1 b with
        | Ok s2 =>
            let b' := mkBlock slot (b_proposer b) (b_parent b) (e_state E s2) atts in
            (b', stored_state s2 b')
        | _ => (b, s)
        end
    | _ => (mkBlock 0 0 0 0 [], s)
    end.
  Definition x_root (x : Block * State) : H256 := block_root (e_header E) (e_body E) x.1.
  Definition x_cp (x : Block * State) : Checkpoint := mkCp (x_root x) (b_slot x.1).
  Definition x_sb (x : Block * State) : SignedBlock := mkSB x.1 7.
End Run.

Definition x_vote (bits : list bool) (slot : N) (src tgt : Checkpoint) : AggAtt :=
  mkAtt bits (mkAD slot tgt tgt src).

(** Time at which slot [s], interval [i] starts, genesis being at second 1000. *)
Definition x_at (s i : N) : N := 1000 * 1000 + s * 4000 + i * 800.

(** *** A fork: B1 - B2 - B3 finalizes slot 1; Y, also a child of B2, finalizes nothing *)
Definition xe : Env := x_env toy_body.
Definition x_vals : list Validator := toy_vals 3.
Definition x_gen : State := genesis toy_body 1000 x_vals.
Definition x_n0 : Node := x_start xe x_gen.
Definition x_g : State := stored_anchor i_state x_gen.
Definition x_g_cp : Checkpoint := mkCp (db_head (nd_db x_n0)) 0.
Definition xb1 := x_block xe x_g 1 [].
Definition xb2 := x_block xe xb1.2 2 [x_vote [true; true] 1 x_g_cp (x_cp xe xb1)].
Definition xb3 := x_block xe xb2.2 3 [x_vote [true; true] 2 (x_cp xe xb1) (x_cp xe xb2)].
Definition xy := x_block xe xb2.2 40 [].
Definition x_es : list node_event :=
  [ev_tick (x_at 40 1) false; ev_block (x_sb xb1); ev_block (x_sb xb2); ev_block (x_sb xb3)].
Definition x_n1 := x_node xe x_n0 x_es.
Definition x_n2 := x_node xe x_n1 [ev_block (x_sb xy)].

Lemma xe_good : good_hash (e_header xe).
Proof. exact i_header_good. Qed.
Lemma xe_acyclic : acyclic_hash (e_header xe).
Proof. exact i_header_acyclic. Qed.
Lemma x_vals_few : lenN x_vals <= VALIDATOR_REGISTRY_LIMIT.
Proof. vm_compute. discriminate. Qed.
Lemma x_started : started xe x_gen x_n0.
Proof. apply x_start_ok. vm_compute. reflexivity. Qed.
Lemma x_anchor : valid_anchor xe 1000 x_vals x_gen.
Proof. exists x_gen, []. split; [constructor|by left]. Qed.
Lemma x_run1 : node_run xe x_n0 x_es x_n1.
Proof. apply x_node_run. vm_compute. reflexivity. Qed.
Lemma x_run2 : node_run xe x_n1 [ev_block (x_sb xy)] x_n2.
Proof. apply x_node_run. vm_compute. reflexivity. Qed.
Lemma x_reach1 : reachable xe 1000 x_vals x_n1.
Proof. exists x_gen, x_n0, x_es. split_and!; [exact x_anchor|exact x_started|exact x_run1]. Qed.
Lemma x_reach0 : reachable xe 1000 x_vals x_n0.
Proof. exists x_gen, x_n0, []. split_and!; [exact x_anchor|exact x_started|constructor]. Qed.
Lemma x_fin1 : cp_slot (db_fin (nd_db x_n1)) = 1.
Proof. vm_compute. reflexivity. Qed.
Lemma x_fin2 : cp_slot (db_fin (nd_db x_n2)) = 0.
Proof. vm_compute. reflexivity. Qed.

(** *** A crash between the block's and the state's commit *)
Definition x_c0 := x_node xe x_n0 [ev_tick (x_at 1 1) false].
Definition x_disk : Db :=
  match import_commits xe x_c0 (x_sb xb1) with Ok (_ :: d :: _) => d | _ => nd_db x_c0 end.
Lemma x_c0_run : node_run xe x_n0 [ev_tick (x_at 1 1) false] x_c0.
Proof. apply x_node_run. vm_compute. reflexivity. Qed.
Lemma x_disk_ok : exists ds, import_commits xe x_c0 (x_sb xb1) = Ok ds /\ ds !! 1%nat = Some x_disk.
Proof.
  assert (match import_commits xe x_c0 (x_sb xb1) with Ok (_ :: _ :: _) => true | _ => false end = true) as H
    by (vm_compute; reflexivity).
  unfold x_disk. destruct (import_commits xe x_c0 (x_sb xb1)) as [[|d0 [|d1 ds]]| |]; try done.
  by exists (d0 :: d1 :: ds).
Qed.
(** The restarted node at the end of slot 1, then in slot 2. *)
Definition x_c1 := x_node xe (start_node x_disk) [ev_tick (x_at 1 4) false].
Lemma x_c1_run : node_run xe (start_node x_disk) [ev_tick (x_at 1 4) false] x_c1.
Proof. apply x_node_run. vm_compute. reflexivity. Qed.
Lemma x_c1_head : read_state (tab x_c1) (db_head (nd_db x_c1)) = Ok None.
Proof. vm_compute. reflexivity. Qed.
Lemma x_c1_panic : on_tick xe x_c1 (x_at 2 3) false = Panic.
Proof. vm_compute. reflexivity. Qed.

Lemma run_crash (P : nat -> Prop) (E : Env) n es n' :
  node_run E n es n' -> forall n0, crash_run E P n0 n -> crash_run E P n0 n'.
Proof. induction 1 as [|es n1 e n2 Hr IH Hs]; intros n0 Hc; [done|]. eapply cr_event; [by apply IH|done]. Qed.
Lemma x_crash : crash_run xe (fun _ => True) x_n0 x_c1.
Proof.
  apply (run_crash _ _ _ _ _ x_c1_run). destruct x_disk_ok as (ds & Hds & Hk).
  eapply cr_crash; [|exact Hds|exact Hk|done]. apply (run_crash _ _ _ _ _ x_c0_run). constructor.
Qed.

(** *** A node started from the state after B3, whose justified block is B2 *)
Fixpoint x_chain (s : State) (bs : list Block) : res StfError State :=
  match bs with
  | [] => Ok s
  | b :: bs' => let! s' := state_transition i_state i_header toy_body s b in x_chain s' bs'
  end.
Lemma x_chain_sound s0 bs0 bs s :
  chain i_state i_header toy_body 1000 x_vals s0 bs0 -> x_chain s0 bs = Ok s ->
  chain i_state i_header toy_body 1000 x_vals s (bs0 ++ bs).
Proof.
  revert s0 bs0. induction bs as [|b bs IH]; intros s0 bs0 Hc; cbn [x_chain].
  - intros [= <-]. by rewrite app_nil_r.
  - intros H. apply rbind_Ok in H as (s1 & H1 & H2).
    replace (bs0 ++ b :: bs) with ((bs0 ++ [b]) ++ bs) by (by rewrite <- app_assoc).
    apply (IH s1); [|done]. by eapply chain_step.
Qed.
Definition x_cs : State := match x_chain x_gen [xb1.1; xb2.1; xb3.1] with Ok s => s | _ => x_gen end.
Lemma x_cs_anchor : valid_anchor xe 1000 x_vals x_cs.
Proof.
  exists x_cs, [xb1.1; xb2.1; xb3.1]. split; [|by left].
  apply (x_chain_sound x_gen []); [constructor|]. vm_compute. reflexivity.
Qed.
Definition x_k0 : Node := x_start xe x_cs.
Lemma x_k0_started : started xe x_cs x_k0.
Proof. apply x_start_ok. vm_compute. reflexivity. Qed.
Definition x_k1 : Node := x_node xe x_k0 [ev_tick (x_at 3 1) false].
Lemma x_k1_run : node_run xe x_k0 [ev_tick (x_at 3 1) false] x_k1.
Proof. apply x_node_run. vm_compute. reflexivity. Qed.
Lemma x_k1_reach : reachable xe 1000 x_vals x_k1.
Proof. exists x_cs, x_k0, [ev_tick (x_at 3 1) false]. split_and!; [exact x_cs_anchor|exact x_k0_started|exact x_k1_run]. Qed.
Definition x_k1_vote : AttestationData :=
  match produce_attestation_data (nd_db x_k1) 3 with Ok a => a | _ => mkAD 0 (mkCp 0 0) (mkCp 0 0) (mkCp 0 0) end.
Lemma x_k1_vote_ok :
  produce_attestation_data (nd_db x_k1) 3 = Ok x_k1_vote /\
  validate_attestation_data (nd_db x_k1) x_k1_vote = Err UnknownSourceBlock.
Proof. split; vm_compute; reflexivity. Qed.

(** *** An environment whose body hash is injective too *)
Definition xi : Env := x_env i_body.
Definition xi_gen : State := genesis i_body 1000 x_vals.
Definition xi_n0 : Node := x_start xi xi_gen.
Definition xi_b1 := x_block xi (stored_anchor i_state xi_gen) 1 [].
Definition xi_b2 := x_block xi xi_b1.2 2 [x_vote [true; true] 1 (mkCp (db_head (nd_db xi_n0)) 0) (x_cp xi xi_b1)].
Definition xi_es : list node_event := [ev_tick (x_at 2 0) false; ev_block (x_sb xi_b1)].
Definition xi_n1 := x_node xi xi_n0 xi_es.
Lemma xi_reach : reachable xi 1000 x_vals xi_n1.
Proof.
  exists xi_gen, xi_n0, xi_es. split_and!.
  - exists xi_gen, []. split; [constructor|by left].
  - apply x_start_ok. vm_compute. reflexivity.
  - apply x_node_run. vm_compute. reflexivity.
Qed.
(** B2 with a vote that justifies B1 is imported, with a bad proof it is not. *)
Lemma xi_import :
  has_state (tab xi_n1) (x_root xi xi_b2) = false /\
  is_ok (on_block xi xi_n1 (x_sb xi_b2)) = true /\
  on_block xi xi_n1 (mkSB xi_b2.1 8) = Err BlockProofVerificationFailed.
Proof. split_and!; vm_compute; reflexivity. Qed.

(** *** Votes in the fork *)
Definition x_vote_data : AttestationData :=
  match produce_attestation_data (nd_db x_n1) 40 with Ok a => a | _ => mkAD 0 (mkCp 0 0) (mkCp 0 0) (mkCp 0 0) end.
Lemma x_vote_data_ok :
  produce_attestation_data (nd_db x_n1) 40 = Ok x_vote_data /\
  ad_head x_vote_data = x_cp xe xb3 /\ ad_target x_vote_data = x_cp xe xb2 /\ ad_source x_vote_data = x_cp xe xb2 /\
  validate_attestation_data (nd_db x_n1) x_vote_data = Ok tt /\
  is_ok (on_gossip_attestation xe x_n1 (mkSA 1 x_vote_data 101) true) = true /\
  on_gossip_attestation xe x_n1 (mkSA 1 x_vote_data 102) true = Err SignatureVerificationFailed /\
  is_ok (on_gossip_aggregated_attestation xe x_n1 (mkSAgg x_vote_data (mkProof [false; true; true] 7))) = true /\
  validate_attestation_data (nd_db x_n1)
    (mkAD 40 (x_cp xe xb2) (x_cp xe xb3) (x_cp xe xb1)) = Err HeadOlderThanTarget.
Proof. split_and!; vm_compute; reflexivity. Qed.

Definition x_agg : SignedAgg := mkSAgg x_vote_data (mkProof [false; true; true] 7).
Definition x_n3 := x_node xe x_n1 [ev_aggregate x_agg].
Lemma x_run3 : node_run xe x_n1 [ev_aggregate x_agg] x_n3.
Proof. apply x_node_run. vm_compute. reflexivity. Qed.
Lemma x_reach3 : reachable xe 1000 x_vals x_n3.
Proof.
  exists x_gen, x_n0, (x_es ++ [ev_aggregate x_agg]).
  refine (conj x_anchor (conj x_started _)). generalize x_run3. generalize x_n3. intros n3 H.
  remember [ev_aggregate x_agg] as l eqn:Hl. destruct H as [|es n1 e n2 Hr Hs]; [done|].
  destruct es as [|e0 es]; [|by destruct es]. cbn in Hl. injection Hl as ->. eapply nr_snoc; [|exact Hs].
  remember [] as l0 eqn:H0. destruct Hr as [|es1 ? ? ? _ _]; [exact x_run1|by destruct es1].
Qed.

Lemma x_clock : db_time (nd_db x_n1) + 1 < two64 - 1.
Proof. vm_compute. reflexivity. Qed.

(** *** Reorgs: from B3 to Y, one block is left behind *)
Lemma x_reorg :
  higher_lower (tab x_n2) (x_root xe xb3) (x_root xe xy) (x_root xe xy) (x_root xe xb3) /\
  reorg_depth (tab x_n2) (x_root xe xb3) (x_root xe xy) = Some 1 /\
  reorg_depth (tab x_n2) (x_root xe xb2) (x_root xe xy) = None.
Proof.
  split_and!; [|vm_compute; reflexivity..].
  exists (header_of toy_body xb3.1), (header_of toy_body xy.1).
  split_and!; [vm_compute; reflexivity..|]. left. split_and!; [vm_compute; discriminate|done..].
Qed.
