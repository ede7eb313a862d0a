(** A proposal whose later votes depend on the earlier ones. *)
From Verif Require Export PackingOne BuilderExamples.
Local Open Scope N_scope.

(** Blocks of slots 1 and 2.  Two aggregates with validators 0, 1 and 1, 2 vote for
    slot 1; validators 0 and 1, and in the next slot 2, vote for slot 2 with source
    slot 1. *)
Definition xkb1 := x_block xp (stored_anchor i_state xp_gen) 1 [].
Definition xkb2 := x_block xp (stored_state xkb1.2 xkb1.1) 2 [].
Definition xk_a : AttestationData := at_data (x_vote [] 1 xp_g_cp (x_cp xp xkb1)).
Definition xk_b : AttestationData := at_data (x_vote [] 2 (x_cp xp xkb1) (x_cp xp xkb2)).
Definition xk_c : AttestationData := at_data (x_vote [] 3 (x_cp xp xkb1) (x_cp xp xkb2)).
Definition xk_es : list node_event :=
  [ev_tick (x_at 3 1) false; ev_block (x_sb xkb1); ev_block (x_sb xkb2);
   ev_aggregate (mkSAgg xk_a (mkProof [true; true] 7));
   ev_aggregate (mkSAgg xk_a (mkProof [false; true; true] 7));
   ev_aggregate (mkSAgg xk_b (mkProof [true; true] 7));
   ev_aggregate (mkSAgg xk_c (mkProof [false; false; true] 7));
   ev_propose 4].
Definition xk_n : Node := x_node xp xp_n0 xk_es.
Definition xk_pool : Payloads := map_to_list (bf_data (nd_known xk_n)).
Definition xk_head : State := match read_state (tab xk_n) (db_head (nd_db xk_n)) with Ok (Some s) => s | _ => xp_gen end.
Definition xk_built (pc : ProposerConfig) : option (Block * list Proof_ * (Checkpoint * Checkpoint)) :=
  match produce_block xp xpv x_iter xk_n 4 0 xk_pool pc with Ok x => Some x | _ => None end.
Definition xk_shape (pc : ProposerConfig) : option (list (Bits * N) * (N * N)) :=
  match xk_built pc with
  | Some (b, ps, (j, f)) => Some (map (fun a => (at_bits a, ad_slot (at_data a))) (b_atts b), (cp_slot j, cp_slot f))
  | None => None
  end.

Lemma xk_reach : reachable_sound xp 1000 xp_vals xk_n.
Proof.
  exists xp_gen, xp_n0, xk_es. split_and!.
  - exists xp_gen, []. split; [constructor|by left].
  - apply x_start_ok. vm_compute. reflexivity.
  - apply x_node_run. vm_compute. reflexivity.
  - unfold xk_es. repeat apply Forall_cons_2; cbn [sound_event]; done.
Qed.
Lemma xk_read : read_state (tab xk_n) (db_head (nd_db xk_n)) = Ok (Some xk_head).
Proof.
  assert (match read_state (tab xk_n) (db_head (nd_db xk_n)) with Ok (Some _) => true | _ => false end = true) as H
    by (vm_compute; reflexivity).
  unfold xk_head. destruct (read_state (tab xk_n) (db_head (nd_db xk_n))) as [[s|]| |]; done.
Qed.
(** With aggregation at the proposer all the votes count and slot 1 gets finalized. *)
Lemma xk_shape_agg :
  xk_shape (mkPC true 8) = Some ([([true; true; true], 1); ([true; true], 2); ([false; false; true], 3)], (2, 1)).
Proof. vm_compute. reflexivity. Qed.
(** Without it the first vote justifies nothing and the others are chosen all the same. *)
Lemma xk_shape_one :
  xk_shape (mkPC false 8) = Some ([([true; true], 1); ([true; true], 2); ([false; false; true], 3)], (0, 0)).
Proof. vm_compute. reflexivity. Qed.

Definition xk_idle (s : State) (b : Block) : bool :=
  match b_atts b, process_slots (e_state xp) s (b_slot b) with
  | [a1; a2; a3], Ok s1 =>
      match process_block_header (e_header xp) (e_body xp) s1 b with
      | Ok s2 =>
          match process_attestations s2 [a1] with
          | Ok mid =>
              match status (s_jslots mid) (cp_slot (s_finalized mid)) (cp_slot (ad_source (at_data a2))) with
              | Some false => negb (cp_slot (ad_source (at_data a2)) =? 0)
              | _ => false
              end
          | _ => false
          end
      | _ => false
      end
  | _, _ => false
  end.
Lemma xk_idle_sound s b :
  xk_idle s b = true ->
  exists pre a post mid, b_atts b = pre ++ a :: post /\ at_vote xp s b pre mid /\ ~ self_vote a /\ ~ useful mid a.
Proof.
  unfold xk_idle, at_vote. intros H.
  destruct (b_atts b) as [|a1 [|a2 [|a3 [|]]]]; try done.
  destruct (process_slots (e_state xp) s (b_slot b)) as [s1| |]; try done.
  destruct (process_block_header (e_header xp) (e_body xp) s1 b) as [s2| |] eqn:H2; try done.
  destruct (process_attestations s2 [a1]) as [mid| |] eqn:H3; try done.
  exists [a1], a2, [a3], mid. split; [done|]. split; [exists s1, s2; done|].
  destruct (status _ _ _) as [[]|] eqn:Hst; try done. split.
  - intros [Hz _]. by rewrite Hz in H.
  - intros [[Hj _] _]. unfold slot_justified in Hj. by rewrite Hst in Hj.
Qed.
Lemma xk_refute :
  exists b proofs cps, produce_block xp xpv x_iter xk_n 4 0 xk_pool (mkPC false 8) = Ok (b, proofs, cps) /\
    exists pre a post mid, b_atts b = pre ++ a :: post /\ at_vote xp xk_head b pre mid /\ ~ self_vote a /\ ~ useful mid a.
Proof.
  assert (match produce_block xp xpv x_iter xk_n 4 0 xk_pool (mkPC false 8) with
          | Ok (b, _, _) => xk_idle xk_head b | _ => false end = true) as H by (vm_compute; reflexivity).
  destruct (produce_block xp xpv x_iter xk_n 4 0 xk_pool (mkPC false 8)) as [[[b proofs] cps]| |]; try done.
  exists b, proofs, cps. split; [done|]. by apply xk_idle_sound.
Qed.

Lemma C62_refuted_pf :
  exists E P iter gt vals n s slot vid pool pc b proofs cps pre a post mid,
    (forall d, an_order (iter d)) /\
    good_hash (e_header E) /\ lenN vals <= VALIDATOR_REGISTRY_LIMIT /\ inj_data E /\
    reachable_sound E gt vals n /\ pool ≡ₚ map_to_list (bf_data (nd_known n)) /\
    produce_block E P iter n slot vid pool pc = Ok (b, proofs, cps) /\
    read_state (tab n) (db_head (nd_db n)) = Ok (Some s) /\
    b_atts b = pre ++ a :: post /\ at_vote E s b pre mid /\ ~ self_vote a /\ ~ useful mid a.
Proof.
  destruct xk_refute as (b & proofs & cps & Hb & pre & a & post & mid & H1 & H2 & H3 & H4).
  exists xp, xpv, x_iter, 1000, xp_vals, xk_n, xk_head, 4, 0, xk_pool, (mkPC false 8), b, proofs, cps, pre, a, post, mid.
  exact (conj x_iter_order (conj xp_good (conj xp_vals_few (conj xp_inj (conj xk_reach
    (conj (Permutation_refl _) (conj Hb (conj xk_read (conj H1 (conj H2 (conj H3 H4))))))))))).
Qed.
