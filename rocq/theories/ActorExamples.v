(** Concrete histories of the actor. *)
From Verif Require Export ActorAll NodeExamples.
Local Open Scope N_scope.

Section XRun.
  Context (E : Env) (C : Config).
  Fixpoint xa_run (a : Actor) (ms : list (World * message))
    : res unit (Actor * list (World * message * list Effect)) :=
    match ms with
    | [] => Ok (a, [])
    | (W, m) :: ms' =>
        let! x := actor_step E C W a m in
        let! y := xa_run x.1 ms' in
        Ok (y.1, (W, m, x.2) :: y.2)
    end.
  Lemma actor_run_app a tr a1 tr' a2 : actor_run E C a tr a1 -> actor_run E C a1 tr' a2 -> actor_run E C a (tr ++ tr') a2.
  Proof.
    intros H1 H2. induction H2 as [|tr' b1 W m b2 fx H IH HW Hs]; [by rewrite app_nil_r|].
    rewrite app_assoc. by econstructor.
  Qed.
  Lemma xa_run_sound ms a a' tr : Forall (fun x => world_ok x.1) ms -> xa_run a ms = Ok (a', tr) -> actor_run E C a tr a'.
  Proof.
    intros HW. revert a tr. induction HW as [|[W m] ms HW Hms IH]; intros a tr; cbn [xa_run].
    - intros [= <- <-]. constructor.
    - intros H. apply rbind_Ok in H as ([a1 fx] & H1 & H). apply rbind_Ok in H as ([a2 tr2] & H2 & H).
      injection H as <- <-. cbn [fst snd] in *. change ((W, m, fx) :: tr2) with ([(W, m, fx)] ++ tr2).
      eapply actor_run_app; [|by apply IH]. change [(W, m, fx)] with ([] ++ [(W, m, fx)]).
      by econstructor; [constructor| |].
  Qed.
  Definition xa_end (a : Actor) (ms : list (World * message)) : Actor :=
    match xa_run a ms with Ok x => x.1 | _ => a end.
  Definition xa_trace (a : Actor) (ms : list (World * message)) : list (World * message * list Effect) :=
    match xa_run a ms with Ok x => x.2 | _ => [] end.
  Lemma xa_ok ms a : Forall (fun x => world_ok x.1) ms -> is_ok (xa_run a ms) = true ->
    actor_run E C a (xa_trace a ms) (xa_end a ms).
  Proof.
    unfold xa_trace, xa_end. intros HW H. destruct (xa_run a ms) as [[a' tr]| |] eqn:Hr; [|done|done].
    by apply (xa_run_sound ms).
  Qed.
End XRun.

(** *** An environment in which only the empty body has the hash of the empty body *)
Definition z_body (l : list AggAtt) : N := match l with [] => 0 | _ => 1 + toy_body l end.
Definition ze : Env :=
  mkEnv (fun s => 1 + s_slot s) i_header z_body x_data
    (fun k => k <? 1000) (fun s => s <? 1000) (fun k _ _ s => s =? k) (fun p _ _ _ => p =? 7)
    (fun p _ _ => p =? 7).
Lemma z_empty l : e_body ze l = e_body ze [] -> l = [].
Proof. destruct l; [done|]. cbn [e_body ze z_body]. intros H. lia. Qed.
Lemma ze_good : good_hash (e_header ze).
Proof. exact i_header_good. Qed.
Lemma ze_acyclic : acyclic_hash (e_header ze).
Proof. exact i_header_acyclic. Qed.
Definition z_gen : State := genesis z_body 1000 x_vals.
Definition z_n0 : Node := x_start ze z_gen.
Lemma z_started : started ze z_gen z_n0.
Proof. apply x_start_ok. vm_compute. reflexivity. Qed.
Lemma z_anchor : valid_anchor ze 1000 x_vals z_gen.
Proof. exists z_gen, []. split; [constructor|by left]. Qed.
Lemma z_reach0 : reachable ze 1000 x_vals z_n0.
Proof. exists z_gen, z_n0, []. split_and!; [exact z_anchor|exact z_started|constructor]. Qed.

(** Each block carries the votes for its parent: B3 finalizes B1, B4 finalizes B2, B5 finalizes B3. *)
Definition z_g_cp : Checkpoint := mkCp (db_head (nd_db z_n0)) 0.
Definition zb1 := x_block ze (stored_anchor (e_state ze) z_gen) 1 [].
Definition zb2 := x_block ze zb1.2 2 [x_vote [true; true] 1 z_g_cp (x_cp ze zb1)].
Definition zb3 := x_block ze zb2.2 3 [x_vote [true; true] 2 (x_cp ze zb1) (x_cp ze zb2)].
Definition zb4 := x_block ze zb3.2 4 [x_vote [true; true] 3 (x_cp ze zb2) (x_cp ze zb3)].
Definition zb5 := x_block ze zb4.2 5 [x_vote [true; true] 4 (x_cp ze zb3) (x_cp ze zb4)].
(** A fork block of slot 2. *)
Definition zx := x_block ze zb1.2 2 [].

(** Validators sign with their key; nothing is built or re-aggregated. *)
Definition xw (now : N) (agg : bool) : World :=
  mkWorld now now agg elements (fun v _ => Some (100 + v)) (fun _ _ _ => None) (fun _ _ => []) (fun _ _ _ => true).
Lemma xw_ok now agg : world_ok (xw now agg).
Proof. by intros s. Qed.
Definition xc : Config := mkConfig [0] 1 [0] true.
Definition za0 : Actor := start_actor z_n0.
Lemma za0_reach : actor_reachable ze xc 1000 x_vals za0.
Proof. exists z_n0, []. split; [exact z_reach0|constructor]. Qed.
Ltac worlds m := unfold m; cbn [take]; repeat (apply List.Forall_cons; [apply xw_ok|]); apply List.Forall_nil.

(** *** Out of order: B3, B2 wait, B1 releases them *)
Definition za_m1 := [(xw (x_at 40 1) false, m_tick)].
Definition za1 := xa_end ze xc za0 za_m1.
Lemma za_run1 : actor_run ze xc za0 (xa_trace ze xc za0 za_m1) za1.
Proof. apply xa_ok; [worlds za_m1|vm_compute; reflexivity]. Qed.
Lemma za1_reach : actor_reachable ze xc 1000 x_vals za1.
Proof. eexists _, _. split; [exact z_reach0|exact za_run1]. Qed.
Definition za_m2 := let W := xw (x_at 40 1) false in
  [(W, m_block (x_sb zb3) true); (W, m_block (x_sb zb2) true); (W, m_block (x_sb zb1) true)].
Definition za2 := xa_end ze xc za1 za_m2.
Definition za_t2 := xa_trace ze xc za1 za_m2.
Lemma za_run2 : actor_run ze xc za1 za_t2 za2.
Proof. apply xa_ok; [worlds za_m2|vm_compute; reflexivity]. Qed.
(** Between the second and the third delivery. *)
Definition za15 := xa_end ze xc za1 (take 2 za_m2).
Lemma za_run15 : actor_run ze xc za1 (xa_trace ze xc za1 (take 2 za_m2)) za15.
Proof. apply xa_ok; [worlds za_m2|vm_compute; reflexivity]. Qed.
Lemma za15_reach : actor_reachable ze xc 1000 x_vals za15.
Proof. eexists _, _. split; [exact z_reach0|]. eapply actor_run_app; [exact za_run1|exact za_run15]. Qed.

(** *** The finality condition is checked block by block *)
Fixpoint anc_b (fuel : nat) (t : Tables) (m c : H256) : bool :=
  match fuel with
  | O => false
  | S f => match t_headers t !! c with
           | Some h => (h_parent h =? m) || anc_b f t m (h_parent h)
           | None => false
           end
  end.
Lemma anc_b_sound f t m c : anc_b f t m c = true -> strict_anc t m c.
Proof.
  revert c. induction f as [|f IH]; intros c; cbn [anc_b]; [done|].
  destruct (t_headers t !! c) as [h|] eqn:Hh; [|done]. intros H. apply orb_true_iff in H as [H|H].
  - apply N.eqb_eq in H. apply sa_one. by exists h.
  - eapply sa_more; [by exists h|]. by apply IH.
Qed.
Definition fin_b (t : Tables) (root : H256) (slot : N) : bool :=
  forallb (fun x : H256 * Header => match read_state t x.1 with
    | Ok (Some s) => implb (slot <=? cp_slot (s_finalized s)) (anc_b 100 t root x.1)
    | _ => true end) (map_to_list (t_headers t)).
Lemma fin_b_sound E gt vals n root slot : good_hash (e_header E) -> lenN vals <= VALIDATOR_REGISTRY_LIMIT ->
  reachable E gt vals n -> fin_b (tab n) root slot = true ->
  forall r s, read_state (tab n) r = Ok (Some s) -> slot <= cp_slot (s_finalized s) -> strict_anc (tab n) root r.
Proof.
  intros Hg Hv Hr Hf r s Hs Hle. destruct (reachable_inv E gt vals Hg Hv _ Hr) as (A & As & w & [Hi _] & _).
  assert (w !! r = Some s) as Hw.
  { destruct (w !! r) as [s'|] eqn:Hw.
    - unfold tab in Hs. rewrite (w_read _ _ _ _ _ _ _ _ _ Hi Hw) in Hs. congruence.
    - pose proof (w_read_none _ _ _ _ _ _ _ _ Hi Hw). unfold tab in Hs. congruence. }
  destruct (w_header _ _ _ _ _ _ _ _ _ Hi Hw) as (Hh & _). apply elem_of_map_to_list in Hh.
  apply elem_of_list_In in Hh. unfold fin_b in Hf. rewrite forallb_forall in Hf. specialize (Hf _ Hh). cbn [fst] in Hf.
  fold (tab n) in Hf. rewrite Hs in Hf. rewrite (proj2 (N.leb_le _ _) Hle) in Hf. by eapply anc_b_sound.
Qed.

(** *** The three blocks are valid *)
Definition z_bs := [x_sb zb3; x_sb zb2; x_sb zb1].
Definition z_post (r : H256) : State :=
  if r =? x_root ze zb1 then zb1.2 else if r =? x_root ze zb2 then zb2.2 else zb3.2.
Lemma z_elem (P : SignedBlock -> Prop) : P (x_sb zb3) -> P (x_sb zb2) -> P (x_sb zb1) -> forall sb, sb ∈ z_bs -> P sb.
Proof.
  intros H1 H2 H3 sb H. apply elem_of_cons in H as [->|H]; [done|]. apply elem_of_cons in H as [->|H]; [done|].
  by apply elem_of_list_singleton in H as ->.
Qed.
Definition z_stf (p : State) (b : Block) : State :=
  match state_transition (e_state ze) (e_header ze) (e_body ze) p b with Ok s => s | _ => p end.
Definition passes_b (p : State) (sb : SignedBlock) (s : State) : bool :=
  let b := sb_block sb in
  (b_slot b - s_slot p <=? HISTORICAL_ROOTS_LIMIT) && negb (has_duplicate_data (b_atts b)) &&
  (lenN (b_atts b) <=? MAX_ATTESTATIONS_DATA) && is_ok (verify_block_signatures ze p sb) &&
  is_ok (state_transition (e_state ze) (e_header ze) (e_body ze) p b).
Lemma passes_b_sound p sb s : passes_b p sb s = true ->
  s = with_header (z_stf p (sb_block sb)) (set_state_root (s_header (z_stf p (sb_block sb))) (b_state_root (sb_block sb))) ->
  passes ze p sb s.
Proof.
  unfold passes_b, z_stf. intros H Hs. repeat (apply andb_true_iff in H as [H ?]).
  unfold passes. apply N.leb_le in H. apply N.leb_le in H2. apply negb_true_iff in H3.
  destruct (verify_block_signatures ze p sb) as [[]| |] eqn:Hv; [|done|done].
  destruct (state_transition _ _ _ p (sb_block sb)) as [post| |] eqn:Hp; [|done|done].
  split_and!; [done|done|done|done|]. by exists post.
Qed.
Lemma z_valid : valid_tree ze (ac_node za1) z_bs z_post.
Proof.
  unfold valid_tree. apply z_elem.
  - exists zb2.2. split; [apply passes_b_sound; vm_compute; reflexivity|]. right. exists (x_sb zb2).
    split; [by right; left|]. split; vm_compute; reflexivity.
  - exists zb1.2. split; [apply passes_b_sound; vm_compute; reflexivity|]. right. exists (x_sb zb1).
    split; [by right; right; left|]. split; vm_compute; reflexivity.
  - exists (stored_anchor (e_state ze) z_gen). split; [apply passes_b_sound; vm_compute; reflexivity|]. left. vm_compute. reflexivity.
Qed.
Lemma z_uniq x y : x ∈ z_bs -> y ∈ z_bs ->
  block_root (e_header ze) (e_body ze) (sb_block x) = block_root (e_header ze) (e_body ze) (sb_block y) -> x = y.
Proof.
  intros Hx Hy. revert x Hx y Hy.
  refine (z_elem _ _ _ _); refine (z_elem _ _ _ _); try reflexivity; intros H; exfalso; vm_compute in H; discriminate.
Qed.
Lemma z_new sb : sb ∈ z_bs ->
  t_headers (tab (ac_node za1)) !! block_root (e_header ze) (e_body ze) (sb_block sb) = None /\
  cp_slot (db_fin (nd_db (ac_node za1))) < b_slot (sb_block sb) /\
  5 * b_slot (sb_block sb) <= db_time (nd_db (ac_node za1)) + 1.
Proof.
  revert sb. refine (z_elem _ _ _ _); (split; [vm_compute; reflexivity|]; split; [vm_compute; reflexivity|vm_compute; discriminate]).
Qed.
Lemma z_trace : let W := xw (x_at 40 1) false in exists f1 f2 f3, za_t2 =
  [(W, m_block (x_sb zb3) true, f1); (W, m_block (x_sb zb2) true, f2); (W, m_block (x_sb zb1) true, f3)].
Proof.
  unfold za_t2, xa_trace, za_m2. cbn [xa_run].
  assert (is_ok (xa_run ze xc za1 za_m2) = true) as Hok by (vm_compute; reflexivity).
  unfold za_m2 in Hok. cbn [xa_run] in Hok.
  destruct (actor_step ze xc _ za1 _) as [[b1 g1]| |]; [|done|done]. cbn [rbind fst snd] in *.
  destruct (actor_step ze xc _ b1 _) as [[b2 g2]| |]; [|done|done]. cbn [rbind fst snd] in *.
  destruct (actor_step ze xc _ b2 _) as [[b3 g3]| |]; [|done|done]. cbn [rbind fst snd] in *. by eexists _, _, _.
Qed.
Lemma z_genuine : genuine ze z_bs za_t2.
Proof.
  intros W m fx sb Hin Hsb.
  assert (W = xw (x_at 40 1) false /\ exists x, x ∈ z_bs /\ m = m_block x true) as (-> & x & Hx & ->).
  { destruct z_trace as (f1 & f2 & f3 & Ht). rewrite Ht in Hin. clear Ht. unfold z_bs.
    apply elem_of_cons in Hin as [Hin|Hin].
    { apply pair_equal_spec in Hin as [Hin _]. apply pair_equal_spec in Hin as [-> ->]. split; [reflexivity|].
      eexists. split; [left|reflexivity]. }
    apply elem_of_cons in Hin as [Hin|Hin].
    { apply pair_equal_spec in Hin as [Hin _]. apply pair_equal_spec in Hin as [-> ->]. split; [reflexivity|].
      eexists. split; [right; left|reflexivity]. }
    apply elem_of_list_singleton in Hin.
    apply pair_equal_spec in Hin as [Hin _]. apply pair_equal_spec in Hin as [-> ->]. split; [reflexivity|].
    eexists. split; [right; right; left|reflexivity]. }
  split.
  - intros y g Hm Heq. assert (y = x) as -> by congruence. by apply z_uniq.
  - intros n slot v y Hb. cbn [w_build xw] in Hb. discriminate.
Qed.
Lemma z_delivered sb : sb ∈ z_bs -> exists W g fx, (W, m_block sb g, fx) ∈ za_t2.
Proof.
  destruct z_trace as (f1 & f2 & f3 & ->). revert sb.
  apply z_elem; eexists _, _, _; [left|right; left|right; right; left].
Qed.
Lemma za2_reach : actor_reachable ze xc 1000 x_vals za2.
Proof. eexists _, _. split; [exact z_reach0|]. eapply actor_run_app; [exact za_run1|exact za_run2]. Qed.
Lemma z_fin sb r s : sb ∈ z_bs -> read_state (tab (ac_node za2)) r = Ok (Some s) ->
  b_slot (sb_block sb) <= cp_slot (s_finalized s) ->
  strict_anc (tab (ac_node za2)) (block_root (e_header ze) (e_body ze) (sb_block sb)) r.
Proof.
  intros Hsb. revert r s.
  apply (fin_b_sound ze 1000 x_vals _ _ _ ze_good x_vals_few (actor_reach_node _ _ _ _ _ za2_reach)).
  revert sb Hsb. apply z_elem; vm_compute; reflexivity.
Qed.

(** *** A block whose proof was pruned is walked up to *)
Definition zb6 := x_block ze zb5.2 21603 [].
Definition zp_m := let W := xw (x_at 21603 1) false in
  [(W, m_tick); (W, m_block (mkSB zx.1 8) true); (W, m_block (x_sb zb1) true);
   (W, m_block (x_sb zb2) true); (W, m_block (x_sb zb3) true); (W, m_block (x_sb zb4) true);
   (W, m_block (x_sb zb5) true); (W, m_block (x_sb zb6) true)].
Definition zy : SignedBlock := mkSB (mkBlock 21603 0 (x_root ze zx) 0 []) 7.
Definition zp := xa_end ze xc za0 zp_m.
Lemma zp_reach : actor_reachable ze xc 1000 x_vals zp.
Proof. eexists _, _. split; [exact z_reach0|]. apply xa_ok; [worlds zp_m|vm_compute; reflexivity]. Qed.
Lemma zp_panic : actor_step ze xc (xw (x_at 21603 1) false) zp (m_block zy true) = Panic.
Proof. vm_compute. reflexivity. Qed.
Lemma zp_clock : clock_fits (ac_node zp).
Proof. vm_compute. reflexivity. Qed.
Lemma zp_wall : wall_fits (xw (x_at 21603 1) false) (ac_node zp).
Proof. vm_compute. reflexivity. Qed.

(** *** B2 waits, a copy of it with a bad proof arrives, then B1 *)
Definition zf_m := let W := xw (x_at 40 1) false in
  [(W, m_block (x_sb zb2) true); (W, m_block (mkSB zb2.1 8) true); (W, m_block (x_sb zb1) true)].
Definition zf := xa_end ze xc za1 zf_m.
Definition zf_t := xa_trace ze xc za1 zf_m.
Lemma zf_run : actor_run ze xc za1 zf_t zf.
Proof. apply xa_ok; [worlds zf_m|vm_compute; reflexivity]. Qed.
Lemma zf_lost : has_state (tab (ac_node zf)) (x_root ze zb2) = false /\ has_state (tab (ac_node zf)) (x_root ze zb1) = true /\
  size (ac_pend zf) = 0%nat.
Proof. vm_compute. auto. Qed.

(** *** A block of slot 1000 is too early; the block waiting for it goes with it *)
Definition z_early : Block := mkBlock 1000 1 0 0 [].
Definition z_child : Block := mkBlock 4 1 (block_root (e_header ze) (e_body ze) z_early) 0 [].
Definition zd := xa_end ze xc za15 [(xw (x_at 40 1) false, m_block (mkSB z_child 7) true)].
Lemma zd_reach : actor_reachable ze xc 1000 x_vals zd.
Proof.
  eexists _, _. split; [exact z_reach0|]. eapply actor_run_app; [exact za_run1|].
  eapply actor_run_app; [exact za_run15|]. apply xa_ok; [apply List.Forall_cons; [apply xw_ok|apply List.Forall_nil]|vm_compute; reflexivity].
Qed.

Lemma zd_under :
  under (ac_pend zd) (block_root (e_header ze) (e_body ze) z_early) (block_root (e_header ze) (e_body ze) z_child).
Proof.
  assert (match ac_pend zd !! block_root (e_header ze) (e_body ze) z_early with
    | Some cs => bool_decide (block_root (e_header ze) (e_body ze) z_child ∈ cs) | None => false end = true) as H
    by (vm_compute; reflexivity).
  destruct (ac_pend zd !! block_root (e_header ze) (e_body ze) z_early) as [cs|] eqn:Hcs; [|discriminate].
  apply bool_decide_eq_true in H. exact (un_one _ _ _ _ Hcs H).
Qed.

(** *** An aggregator: its own vote, one more vote in the early window, two slots *)
Definition z_data : AttestationData :=
  match actor_step ze xc (xw (x_at 1 1) true) za0 m_tick with
  | Ok (_, l) => match omap (fun x => match x with fx_publish_att sa => Some (sa_data sa) | _ => None end) l with
                 | d :: _ => d | [] => mkAD 0 (mkCp 0 0) (mkCp 0 0) (mkCp 0 0) end
  | _ => mkAD 0 (mkCp 0 0) (mkCp 0 0) (mkCp 0 0)
  end.
Definition zs_m : list (World * message) :=
  [(xw (x_at 1 1) true, m_tick); (xw (x_at 1 1 + 300) true, m_attestation (mkSA 1 z_data 101));
   (xw (x_at 1 2) true, m_tick); (xw (x_at 2 2) true, m_tick)].
Definition zs := xa_end ze xc za0 zs_m.
Definition zs_t := xa_trace ze xc za0 zs_m.
Lemma zs_run : actor_run ze xc za0 zs_t zs.
Proof. apply xa_ok; [worlds zs_m|vm_compute; reflexivity]. Qed.
Lemma zs_sessions : sessions (effects zs_t) = [1; 2].
Proof. vm_compute. reflexivity. Qed.
Lemma zs_clock : clock_forward zs_t.
Proof.
  assert (map (fun x => w_now x.1.1) zs_t = [x_at 1 1; x_at 1 1 + 300; x_at 1 2; x_at 2 2]) as H by (vm_compute; reflexivity).
  intros i j x y Hij Hi Hj.
  assert (map (fun x => w_now x.1.1) zs_t !! i = Some (w_now x.1.1)) as Hi' by (by rewrite list_lookup_fmap, Hi).
  assert (map (fun x => w_now x.1.1) zs_t !! j = Some (w_now y.1.1)) as Hj' by (by rewrite list_lookup_fmap, Hj).
  rewrite H in Hi', Hj'. clear H Hi Hj. revert Hi' Hj'. generalize (w_now x.1.1) (w_now y.1.1). intros u v.
  vm_compute (x_at 1 1). vm_compute (x_at 1 2). vm_compute (x_at 2 2).
  destruct i as [|[|[|[|i]]]], j as [|[|[|[|j]]]]; cbn; intros H1 H2; try lia; try discriminate;
    injection H1 as <-; injection H2 as <-; lia.
Qed.
(** The early start: after the second vote. *)
Definition zs1 := xa_end ze xc za0 (take 1 zs_m).

(** The forged copy of B2, as a counterexample. *)
Definition zf_bs := [x_sb zb2; x_sb zb1].
Lemma zf_elem (P : SignedBlock -> Prop) : P (x_sb zb2) -> P (x_sb zb1) -> forall sb, sb ∈ zf_bs -> P sb.
Proof.
  intros H1 H2 sb H. apply elem_of_cons in H as [->|H]; [done|]. by apply elem_of_list_singleton in H as ->.
Qed.
Lemma zf_sub sb : sb ∈ zf_bs -> sb ∈ z_bs.
Proof. intros H. by right. Qed.
Lemma zf_trace : let W := xw (x_at 40 1) false in exists f1 f2 f3, zf_t =
  [(W, m_block (x_sb zb2) true, f1); (W, m_block (mkSB zb2.1 8) true, f2); (W, m_block (x_sb zb1) true, f3)].
Proof.
  unfold zf_t, xa_trace, zf_m. cbn [xa_run].
  assert (is_ok (xa_run ze xc za1 zf_m) = true) as Hok by (vm_compute; reflexivity).
  unfold zf_m in Hok. cbn [xa_run] in Hok.
  destruct (actor_step ze xc _ za1 _) as [[b1 g1]| |]; [|done|done]. cbn [rbind fst snd] in *.
  destruct (actor_step ze xc _ b1 _) as [[b2 g2]| |]; [|done|done]. cbn [rbind fst snd] in *.
  destruct (actor_step ze xc _ b2 _) as [[b3 g3]| |]; [|done|done]. cbn [rbind fst snd] in *. by eexists _, _, _.
Qed.
Lemma zf_valid : valid_tree ze (ac_node za1) zf_bs z_post.
Proof.
  unfold valid_tree. apply zf_elem.
  - exists zb1.2. split; [apply passes_b_sound; vm_compute; reflexivity|]. right. exists (x_sb zb1).
    split; [by right; left|]. split; vm_compute; reflexivity.
  - exists (stored_anchor (e_state ze) z_gen). split; [apply passes_b_sound; vm_compute; reflexivity|]. left. vm_compute. reflexivity.
Qed.
Lemma zf_reach : actor_reachable ze xc 1000 x_vals zf.
Proof. eexists _, _. split; [exact z_reach0|]. eapply actor_run_app; [exact za_run1|exact zf_run]. Qed.
Lemma zf_fin sb r s : sb ∈ zf_bs -> read_state (tab (ac_node zf)) r = Ok (Some s) ->
  b_slot (sb_block sb) <= cp_slot (s_finalized s) ->
  strict_anc (tab (ac_node zf)) (block_root (e_header ze) (e_body ze) (sb_block sb)) r.
Proof.
  intros Hsb. revert r s.
  apply (fin_b_sound ze 1000 x_vals _ _ _ ze_good x_vals_few (actor_reach_node _ _ _ _ _ zf_reach)).
  revert sb Hsb. apply zf_elem; vm_compute; reflexivity.
Qed.
Lemma z_forged :
  exists E C gt vals a tr a' bs post,
    let root sb := block_root (e_header E) (e_body E) (sb_block sb) in
    good_hash (e_header E) /\ lenN vals <= VALIDATOR_REGISTRY_LIMIT /\ acyclic_hash (e_header E) /\
    (forall l, e_body E l = e_body E [] -> l = []) /\
    actor_reachable E C gt vals a /\ actor_run E C a tr a' /\
    (forall x y, x ∈ bs -> y ∈ bs -> root x = root y -> x = y) /\
    valid_tree E (ac_node a) bs post /\
    (forall sb, sb ∈ bs -> t_headers (tab (ac_node a)) !! root sb = None /\
      cp_slot (db_fin (nd_db (ac_node a))) < b_slot (sb_block sb) /\
      5 * b_slot (sb_block sb) <= db_time (nd_db (ac_node a)) + 1) /\
    (forall sb, sb ∈ bs -> exists W g fx, (W, m_block sb g, fx) ∈ tr) /\
    (forall sb r s, sb ∈ bs -> read_state (tab (ac_node a')) r = Ok (Some s) ->
      b_slot (sb_block sb) <= cp_slot (s_finalized s) -> strict_anc (tab (ac_node a')) (root sb) r) /\
    (forall W m fx, (W, m, fx) ∈ tr -> forall n slot v, w_build W n slot v = None) /\
    exists sb, sb ∈ bs /\ has_state (tab (ac_node a')) (root sb) = false /\ ac_pend a' = ∅.
Proof.
  exists ze, xc, 1000, x_vals, za1, zf_t, zf, zf_bs, z_post. cbv zeta.
  refine (conj ze_good (conj x_vals_few (conj ze_acyclic (conj z_empty (conj za1_reach (conj zf_run (conj _ (conj zf_valid
    (conj _ (conj _ (conj zf_fin (conj _ _)))))))))))).
  - intros x y Hx Hy. apply z_uniq; by apply zf_sub.
  - intros sb Hsb. by apply z_new, zf_sub.
  - destruct zf_trace as (f1 & f2 & f3 & ->). apply zf_elem; eexists _, _, _; [left|right; right; left].
  - destruct zf_trace as (f1 & f2 & f3 & ->). intros W m fx Hin n slot v.
    repeat (apply elem_of_cons in Hin as [Hin|Hin];
      [apply pair_equal_spec in Hin as [Hin _]; apply pair_equal_spec in Hin as [-> _]; reflexivity|]).
    by apply elem_of_nil in Hin.
  - exists (x_sb zb2). split; [left|]. split; [exact (proj1 zf_lost)|].
    apply map_size_empty_inv. exact (proj2 (proj2 zf_lost)).
Qed.
