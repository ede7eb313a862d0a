(** Proofs of the node properties: invariants of reachable nodes. *)
From Verif Require Export NodeThms2.

Section Reach.
  Context (E : Env) (gt : N) (vals : list Validator).
  Context (Hgood : good_hash (e_header E)) (Hvals : lenN vals <= VALIDATOR_REGISTRY_LIMIT).
  Notation hs := (e_state E).
  Notation hh := (e_header E).
  Notation hb := (e_body E).
  Notation root_ := (block_root hh hb).
  Notation stf_ := (state_transition hs hh hb).
  Notation db_inv := (db_inv E gt vals).
  Notation node_inv := (node_inv E gt vals).
  Notation step_ok := (step_ok E gt vals).

  Lemma reachable_inv n : reachable E gt vals n ->
    exists A As w, node_inv A As w n /\ head_ok (nd_db n).
  Proof.
    intros (a & n0 & es & Ha & Hs & Hr). destruct (started_inv E gt vals Hgood Hvals a n0 Ha Hs) as (w & Hi & Hok).
    destruct (run_inv E gt vals Hgood Hvals _ _ _ _ _ _ Hi Hr) as (w' & Hst).
    exists (db_head (nd_db n0)), (s_slot a), w'. split; [apply Hst|]. by apply (so_head _ _ _ _ _ _ _ _ _ Hst).
  Qed.

  (** ** C31 *)
  Lemma C31_known_pf n sb : has_state (tab n) (root_ (sb_block sb)) = true -> on_block E n sb = Ok n.
  Proof. intros H. unfold on_block, check_block. unfold tab in H. by rewrite H. Qed.

  Lemma inv_check_no_panic A As w d sb : db_inv A As w d -> check_block E d sb <> Panic.
  Proof.
    intros Hi. unfold check_block. destruct (has_state _ _); [done|].
    destruct (w !! b_parent (sb_block sb)) as [p|] eqn:Hp.
    2:{ by rewrite (w_read_none _ _ _ _ _ _ _ _ Hi Hp). }
    rewrite (w_read _ _ _ _ _ _ _ _ _ Hi Hp). cbn [expect rbind].
    destruct (HISTORICAL_ROOTS_LIMIT <? _); [done|]. destruct (current_slot d + 1 <? _); [done|].
    destruct (has_duplicate_data _); [done|]. destruct (MAX_ATTESTATIONS_DATA <? _); [done|].
    pose proof (verify_no_panic E p sb) as Hv. destruct (verify_block_signatures E p sb); cbn [rbind]; try done.
    destruct (di_chain _ _ _ _ _ _ _ Hi _ _ Hp) as (raw & bs & Hc & ->).
    pose proof (chain_no_panic _ _ _ _ _ _ _ (sb_block sb) Hc Hvals) as Hnp.
    rewrite stf_seal. by destruct (stf_ raw (sb_block sb)).
  Qed.

  Lemma inv_on_block A As w n sb :
    node_inv A As w n ->
    match check_block E (nd_db n) sb with
    | Err e => on_block E n sb = Err e /\ import_commits E n sb = Err e
    | Panic => False
    | Ok None => on_block E n sb = Ok n /\ import_commits E n sb = Ok []
    | Ok (Some post) => exists n' ds w', on_block E n sb = Ok n' /\ import_commits E n sb = Ok ds /\
        last ds = Some (nd_db n') /\ step_ok A As w w' n n'
    end.
  Proof.
    intros Hn. pose proof (inv_check_no_panic _ _ _ _ sb (proj1 Hn)) as Hnp.
    destruct (check_block E (nd_db n) sb) as [o|e|] eqn:Hc; [| |done].
    - pose proof (check_block_spec E gt vals _ _ _ _ _ _ (proj1 Hn) Hc) as [[-> Hr]|(p & post & Hnone & Hpar & Hst & ->)].
      + unfold on_block, import_commits. by rewrite Hc.
      + destruct (import_spec E gt vals Hgood Hvals _ _ _ _ sb _ _ Hn Hnone Hpar Hst) as
          (d1 & d3 & n1 & h & o & d4 & H1 & _ & _ & _ & _ & H2 & _ & H3 & H4 & _ & H5 & H6 & H7 & _ & H8 & _).
        eexists n1, _, _. unfold on_block, import_commits. rewrite Hc. cbn [rbind].
        rewrite H1. cbn [expect rbind]. rewrite H2. cbn [expect rbind]. rewrite H3. cbn [expect].
        rewrite H5. cbn [expect rbind]. rewrite H6. cbn [expect rbind]. rewrite H7. cbn [expect rbind].
        split_and!; [done|done| |exact H4]. cbn [last]. by rewrite H8.
    - unfold on_block, import_commits. by rewrite Hc.
  Qed.

  Lemma C31_rejected_pf n sb :
    reachable E gt vals n ->
    on_block E n sb <> Panic /\
    forall e, on_block E n sb = Err e ->
      check_block E (nd_db n) sb = Err e /\ import_commits E n sb = Err e.
  Proof.
    intros Hr. destruct (reachable_inv _ Hr) as (A & As & w & Hi & _).
    pose proof (inv_on_block _ _ _ _ sb Hi) as H.
    destruct (check_block E (nd_db n) sb) as [[post|]|e|]; [| | |done].
    - destruct H as (n' & ds & w' & H1 & _). rewrite H1. done.
    - destruct H as [-> _]. done.
    - destruct H as [-> ->]. split; [done|]. by intros ? [= <-].
  Qed.

  Lemma C31_accepted_pf n sb n' :
    (forall l l', hb l = hb l' -> l = l') ->
    reachable E gt vals n -> let b := sb_block sb in
    has_state (tab n) (root_ b) = false -> on_block E n sb = Ok n' ->
    exists parent post,
      read_state (tab n) (b_parent b) = Ok (Some parent) /\ stf_ parent b = Ok post /\
      read_state (tab n') (root_ b) = Ok (Some (stored_state post b)) /\
      get_signed_block hb (tab n') (root_ b) = Some sb /\
      (cp_slot (db_fin (nd_db n')) <= b_slot b -> live_chain (tab n') !! root_ b = Some (b_slot b, b_parent b)) /\
      nd_votes n' = record_block_votes E (nd_votes n) (b_atts b) /\
      (forall r s, read_state (tab n) r = Ok (Some s) -> read_state (tab n') r = Ok (Some s)) /\
      (forall r h, t_headers (tab n) !! r = Some h -> t_headers (tab n') !! r = Some h) /\
      exists ds, import_commits E n sb = Ok ds /\ last ds = Some (nd_db n').
  Proof.
    intros binj Hr b Hnew Hok. destruct (reachable_inv _ Hr) as (A & As & w & Hn & _).
    pose proof (inv_on_block _ _ _ _ sb Hn) as Hall.
    unfold on_block in Hok. apply rbind_Ok in Hok as (o & Hc & Hok). rewrite Hc in Hall.
    destruct (check_block_spec E gt vals _ _ _ _ _ _ (proj1 Hn) Hc) as [[-> Hw]|(p & post & Hnone & Hpar & Hst & ->)].
    { exfalso. unfold tab in Hnew. rewrite (has_state_spec _ _ _ _ _ (root_ b) (di_st _ _ _ _ _ _ _ (proj1 Hn))) in Hnew.
      apply bool_decide_eq_false in Hnew. done. }
    destruct Hall as (n1 & ds & w1 & Hon & Hds & Hlast & _).
    assert (n1 = n') as ->.
    { unfold on_block in Hon. rewrite Hc in Hon. cbn [rbind] in Hon. rewrite Hok in Hon. congruence. }
    destruct (import_spec E gt vals Hgood Hvals _ _ _ _ sb _ _ Hn Hnone Hpar Hst) as
      (d1 & d3 & n1 & h & o & d4 & H1 & Hi1 & _ & _ & _ & H2 & Hi3 & H3 & H4 & _ & H5 & H6 & H7 & _ & H8 & Hhu & Hv & Hlive & Hget & _ & Hfin).
    assert (n1 = n') as ->.
    { rewrite H1 in Hok. cbn [expect rbind] in Hok. rewrite H2 in Hok. cbn [expect rbind] in Hok. rewrite H3 in Hok.
      cbn [expect] in Hok. congruence. }
    exists p, post.
    assert (db_inv A As (<[root_ b := stored_state post b]> w) (nd_db n')) as Hi' by apply H4.
    split_and!.
    - by apply (w_read _ _ _ _ _ _ _ _ _ (proj1 Hn)).
    - done.
    - apply (w_read _ _ _ _ _ _ _ _ _ Hi'). apply lookup_insert.
    - assert (get_signed_block hb (tab n') (root_ b) = get_signed_block hb (db_tab d3) (root_ b)) as ->.
      { unfold get_signed_block, tab. rewrite (hu_headers _ _ _ Hhu), (hu_bodies _ _ _ Hhu), (hu_proofs _ _ _ Hhu). done. }
      fold b in Hget. rewrite Hget.
      pose proof (holds_write hh hb binj (db_tab d1) sb) as Hh.
      apply (holds_live _ _ _ _ _ (<[(b_slot b, root_ b) := b_parent b]> (t_live (write_signed_block hb (db_tab d1) (root_ b) sb)))) in Hh.
      apply (holds_read hh hb binj) in Hh. fold b in Hh. unfold insert_signed_block. fold b. rewrite Hh. by destruct sb.
    - intros Hf. apply (live_lookup _ _ _ _ _ _ _ _ _ _ Hi'). apply (hu_live _ _ _ Hhu).
      split; [rewrite Hlive; apply lookup_insert|]. done.
    - done.
    - intros r s Hrs. apply (w_read _ _ _ _ _ _ _ _ _ Hi'). apply (so_w _ _ _ _ _ _ _ _ _ H4).
      destruct (w !! r) as [s'|] eqn:Hw.
      + unfold tab in Hrs. rewrite (w_read _ _ _ _ _ _ _ _ _ (proj1 Hn) Hw) in Hrs. by apply Ok_inj in Hrs.
      + unfold tab in Hrs. rewrite (w_read_none _ _ _ _ _ _ _ _ (proj1 Hn) Hw) in Hrs. by apply Ok_inj in Hrs.
    - apply (so_headers _ _ _ _ _ _ _ _ _ H4).
    - eauto.
  Qed.

  (** ** C29 *)
  Lemma C29_invariant_pf a n0 es1 n1 es2 n2 :
    valid_anchor E gt vals a -> started E a n0 -> node_run E n0 es1 n1 -> node_run E n1 es2 n2 ->
    let d1 := nd_db n1 in let d2 := nd_db n2 in
    cp_slot (db_just d1) <= cp_slot (db_just d2) /\
    cp_slot (db_fin d1) <= cp_slot (db_just d2) /\
    db_time d1 <= db_time d2 /\
    (exists p, live_chain (db_tab d2) !! cp_root (db_just d2) = Some (cp_slot (db_just d2), p)) /\
    descends (live_chain (db_tab d2)) (db_head d2) (cp_root (db_just d2)) /\
    (exists s, read_state (db_tab d2) (db_head d2) = Ok (Some s)) /\
    slots_decrease (live_chain (db_tab d2)).
  Proof.
    intros Ha Hs Hr1 Hr2. destruct (started_inv E gt vals Hgood Hvals a n0 Ha Hs) as (w & Hi & Hok).
    destruct (run_inv E gt vals Hgood Hvals _ _ _ _ _ _ Hi Hr1) as (w1 & Hst1).
    destruct (run_inv E gt vals Hgood Hvals _ _ _ _ _ _ (so_inv _ _ _ _ _ _ _ _ _ Hst1) Hr2) as (w2 & Hst2).
    pose proof (so_head _ _ _ _ _ _ _ _ _ Hst2 (so_head _ _ _ _ _ _ _ _ _ Hst1 Hok)) as Hok2.
    destruct (so_inv _ _ _ _ _ _ _ _ _ Hst1) as [Hi1 _]. destruct (so_inv _ _ _ _ _ _ _ _ _ Hst2) as [Hi2 _].
    pose proof (so_just _ _ _ _ _ _ _ _ _ Hst2). pose proof (di_fin_just _ _ _ _ _ _ _ Hi1).
    split_and!; try done; try lia.
    - apply Hst2.
    - by apply (live_just _ _ _ Hvals _ _ _ _ Hi2).
    - destruct (di_head _ _ _ _ _ _ _ Hi2) as [s Hs2]. exists s. by apply (w_read _ _ _ _ _ _ _ _ _ Hi2).
    - by apply (live_decreasing _ _ _ Hgood Hvals _ _ _ _ Hi2).
  Qed.

  Lemma inv_hashed A As w d : db_inv A As w d -> hashed hh (db_tab d).
  Proof. intros Hi r h Hh. exact (si_hash _ _ _ _ _ (di_st _ _ _ _ _ _ _ Hi) _ _ Hh). Qed.

  Lemma inv_validate A As w n a :
    acyclic_hash hh -> clock_fits n -> db_inv A As w (nd_db n) ->
    validate_attestation_data (nd_db n) a <> Panic /\
    (validate_attestation_data (nd_db n) a = Ok tt -> ad_slot a < two32).
  Proof.
    intros Hac Hcl Hi. unfold clock_fits, two32 in *.
    destruct (C33_validation_iff_pf hh (nd_db n) a Hac (inv_hashed _ _ _ _ Hi)) as [H1 H2].
    { unfold two64. lia. }
    split; [done|]. intros Hok. apply H2 in Hok as [_ _ _ _ _ _ _ Ht]. lia.
  Qed.

  Lemma C29_no_panic_pf n e :
    acyclic_hash hh -> reachable E gt vals n -> clock_fits n -> node_step E n e <> Panic.
  Proof.
    intros Hac Hr Hcl. destruct (reachable_inv _ Hr) as (A & As & w & Hn & _).
    pose proof Hn as [Hi (M1 & M2 & M3)].
    destruct e as [sb|sb|ts hp|sa agg|sg|l keys|slot| |]; cbn [node_step].
    - pose proof (inv_on_block _ _ _ _ sb Hn) as H.
      destruct (check_block E (nd_db n) sb) as [[post|]|e|]; [| | |done].
      + destruct H as (n' & ds & w' & -> & _). done.
      + destruct H as [-> _]. done.
      + destruct H as [-> _]. done.
    - by destruct (pends n (sb_block sb)).
    - destruct (on_tick_step E gt vals Hgood Hvals _ _ _ _ ts hp Hn) as (n1 & -> & _). done.
    - unfold on_gossip_attestation. destruct (inv_validate _ _ _ _ (sa_data sa) Hac Hcl Hi) as [Hv1 Hv2].
      destruct (validate_attestation_data (nd_db n) (sa_data sa)) as [[]|er|]; [|done|done]. specialize (Hv2 eq_refl).
      cbn [rbind]. unfold tab.
      destruct (w !! cp_root (ad_target (sa_data sa))) as [ts|] eqn:Ht.
      2:{ by rewrite (w_read_none _ _ _ _ _ _ _ _ Hi Ht). }
      rewrite (w_read _ _ _ _ _ _ _ _ _ Hi Ht). cbn [expect rbind].
      destruct (getN _ _) as [v|]; [|done]. destruct (negb (e_key_ok E _)); [done|].
      destruct (N.leb_spec two32 (ad_slot (sa_data sa))); [lia|].
      destruct (negb (e_sig_ok E _)); [done|]. destruct (negb (e_sig_valid E _ _ _ _)); [done|].
      destruct agg; [|done].
      destruct (insert_spec (e_data E) (nd_gossip n) (sa_data sa) (sa_validator sa) (sa_sig sa) M3) as (g & -> & _). done.
    - unfold on_gossip_aggregated_attestation. destruct (inv_validate _ _ _ _ (sg_data sg) Hac Hcl Hi) as [Hv1 Hv2].
      destruct (validate_attestation_data (nd_db n) (sg_data sg)) as [[]|er|]; [|done|done]. specialize (Hv2 eq_refl).
      cbn [rbind]. unfold tab.
      destruct (w !! cp_root (ad_target (sg_data sg))) as [ts|] eqn:Ht.
      2:{ by rewrite (w_read_none _ _ _ _ _ _ _ _ Hi Ht). }
      rewrite (w_read _ _ _ _ _ _ _ _ _ Hi Ht). cbn [expect rbind].
      destruct (validator_indices _) as [|v l]; [done|]. destruct (att_keys _ _) as [ks|]; [|done].
      destruct (negb (forallb _ _)); [done|]. destruct (N.leb_spec two32 (ad_slot (sg_data sg))); [lia|].
      destruct (negb _); [done|].
      destruct (payload_step E gt vals _ _ _ _ (sg_data sg) (sg_proof sg) Hn) as (n1 & -> & _). done.
    - destruct (batch_step E gt vals Hvals _ _ _ _ l Hn) as (n1 & -> & Hs & Hd). cbn [rbind].
      pose proof (so_inv _ _ _ _ _ _ _ _ _ Hs) as (_ & _ & _ & M3').
      destruct (delete_spec (e_data E) (nd_gossip n1) keys M3') as (g & -> & _). done.
    - unfold get_proposal_head.
      destruct (on_tick_step E gt vals Hgood Hvals _ _ _ _ (db_gt (nd_db n) * 1000 + slot * MILLISECONDS_PER_SLOT) true Hn) as (n1 & -> & Hs & _).
      cbn [rbind]. destruct (accept_step E gt vals Hgood Hvals _ _ _ _ (so_inv _ _ _ _ _ _ _ _ _ Hs)) as (n2 & -> & _). done.
    - destruct (db_inv_prune_old _ _ _ Hvals _ _ _ _ Hi) as (d' & -> & _). done.
    - done.
  Qed.

  (** ** C28 *)
  Lemma crash_inv A As w n (P : nat -> Prop) n' :
    (forall k, P k -> k <> 1%nat) -> node_inv A As w n -> crash_run E P n n' -> exists w', node_inv A As w' n'.
  Proof.
    intros HP Hn Hr. induction Hr as [|n1 e n2 Hr IH Hs|n1 sb ds k d Hr IH Hds Hk Hpk|n1 t Hr IH Ht|n1 h o d Hr IH Hg Hf Hap].
    - eauto.
    - destruct IH as (w1 & H1). destruct (node_step_inv E gt vals Hgood Hvals _ _ _ _ _ _ H1 Hs) as (w2 & H2).
      exists w2. apply H2.
    - destruct IH as (w1 & H1). specialize (HP k Hpk). unfold import_commits in Hds.
      apply rbind_Ok in Hds as (o & Hc & Hds).
      destruct (check_block_spec E gt vals _ _ _ _ _ _ (proj1 H1) Hc) as [[-> Hw]|(p & post & Hnone & Hpar & Hst & ->)].
      { injection Hds as <-. done. }
      destruct (import_spec E gt vals Hgood Hvals _ _ _ _ sb _ _ H1 Hnone Hpar Hst) as
        (d1 & d3 & n2 & h & o & d4 & G1 & Gi1 & _ & _ & _ & G2 & Gi3 & G3 & G4 & _ & G5 & G6 & G7 & Gi4 & G8 & _).
      rewrite G1 in Hds. cbn [expect rbind] in Hds. rewrite G2 in Hds. cbn [expect rbind] in Hds.
      rewrite G5 in Hds. cbn [expect rbind] in Hds. rewrite G6 in Hds. cbn [expect rbind] in Hds.
      rewrite G7 in Hds. cbn [expect rbind] in Hds. injection Hds as <-.
      assert (exists w', db_inv A As w' d) as [w' Hd]; [|exists w'; split; [done|apply mem_start]].
      destruct k as [|[|[|[|[|k]]]]]; cbn in Hk; try done; injection Hk as <-; eauto.
      rewrite <- G8. eexists. apply G4.
    - destruct IH as (w1 & H1). exists w1. split; [|apply mem_start]. by apply (db_inv_time _ _ _ Hvals), H1.
    - destruct IH as (w1 & H1). exists w1.
      destruct (update_head_spec E gt vals Hgood Hvals _ _ _ _ (proj1 H1) (proj2 H1)) as
        (n2 & h' & s & o' & d1 & _ & Hg' & Hs & Ho & Hap' & _ & Hi1 & _).
      assert (h' = h) as -> by congruence. assert (o' = o) as -> by congruence. assert (d1 = d) as -> by congruence.
      split; [done|apply mem_start].
  Qed.

  Lemma C28_crash_safe_pf a n0 (P : nat -> Prop) n :
    valid_anchor E gt vals a -> started E a n0 -> (forall k, P k -> k <> 1%nat) -> crash_run E P n0 n ->
    (exists s, read_state (tab n) (db_head (nd_db n)) = Ok (Some s)) /\
    exists n', update_head n = Ok n' /\ exists s, read_state (tab n') (db_head (nd_db n')) = Ok (Some s).
  Proof.
    intros Ha Hs HP Hr. destruct (started_inv E gt vals Hgood Hvals a n0 Ha Hs) as (w & Hi & Hok).
    destruct (crash_inv _ _ _ _ _ _ HP Hi Hr) as (w' & Hi').
    destruct (di_head _ _ _ _ _ _ _ (proj1 Hi')) as [s Hs'].
    split; [exists s; by apply (w_read _ _ _ _ _ _ _ _ _ (proj1 Hi'))|].
    destruct (update_head_step E gt vals Hgood Hvals _ _ _ _ Hi') as (n' & Hu & Hst & _).
    exists n'. split; [done|]. destruct (so_inv _ _ _ _ _ _ _ _ _ Hst) as [Hi2 _].
    destruct (di_head _ _ _ _ _ _ _ Hi2) as [s2 Hs2]. exists s2. by apply (w_read _ _ _ _ _ _ _ _ _ Hi2).
  Qed.

  Lemma tables_eq (t t' : Tables) :
    t_headers t = t_headers t' -> t_bodies t = t_bodies t' -> t_proofs t = t_proofs t' ->
    t_states t = t_states t' -> t_diffs t = t_diffs t' -> t_roots t = t_roots t' ->
    t_live t = t_live t' -> t = t'.
  Proof. destruct t, t'. cbn. intros. subst. reflexivity. Qed.
  Lemma insert_again t root sb :
    insert_signed_block hb (insert_signed_block hb t root sb) root sb = insert_signed_block hb t root sb.
  Proof.
    unfold insert_signed_block, write_signed_block.
    destruct (h_body_root (header_of hb (sb_block sb)) =? EMPTY_BODY_ROOT hb);
      apply tables_eq; first [reflexivity | refine (insert_insert _ _ _ _)].
  Qed.

  (** The block that was being imported repairs the database when it comes again. *)
  Lemma C28_redelivery_pf n sb ds d :
    reachable E gt vals n -> import_commits E n sb = Ok ds -> ds !! 1%nat = Some d ->
    exists n', on_block E (start_node d) sb = Ok n' /\
      (exists s, read_state (tab n') (db_head (nd_db n')) = Ok (Some s)) /\
      (exists s, read_state (tab n') (block_root hh hb (sb_block sb)) = Ok (Some s)) /\
      (forall r s, read_state (tab n) r = Ok (Some s) -> read_state (tab n') r = Ok (Some s)).
  Proof.
    intros Hr Hds Hk. destruct (reachable_inv _ Hr) as (A & As & w & Hn & _).
    unfold import_commits in Hds. apply rbind_Ok in Hds as (o & Hc & Hds).
    destruct (check_block_spec E gt vals _ _ _ _ _ _ (proj1 Hn) Hc) as [[-> Hw]|(p & post & Hnone & Hpar & Hst & ->)].
    { injection Hds as <-. done. }
    destruct (import_spec E gt vals Hgood Hvals _ _ _ _ sb _ _ Hn Hnone Hpar Hst) as
      (d1 & d3 & n2 & h & o & d4 & G1 & Gi1 & Gj & _ & _ & G2 & Gi3 & G3 & G4 & _ & G5 & G6 & G7 & Gi4 & G8 & _).
    rewrite G1 in Hds. cbn [expect rbind] in Hds. rewrite G2 in Hds. cbn [expect rbind] in Hds.
    rewrite G5 in Hds. cbn [expect rbind] in Hds. rewrite G6 in Hds. cbn [expect rbind] in Hds.
    rewrite G7 in Hds. cbn [expect rbind] in Hds. apply Ok_inj in Hds as <-. cbn in Hk.
    assert (d = import_block E d1 sb) as -> by congruence. clear Hk.
    set (b := sb_block sb) in *. set (s := stored_state post b) in *.
    (* states are read as before *)
    assert (st_inv hs hh (db_tab (import_block E d1 sb)) [] w) as Hst2.
    { eapply (st_inv_write hs hh hb (proj1 Hgood) _ _ _ sb); [apply Gi1|apply insert_headers_row|apply insert_states|apply insert_diffs]. }
    assert (forall r, read_state (db_tab (import_block E d1 sb)) r = read_state (tab n) r) as Hread.
    { intros r. destruct (w !! r) as [x|] eqn:Hx.
      - rewrite (read_spec _ _ _ _ _ _ _ Hst2 Hx). symmetry. apply (w_read _ _ _ _ _ _ _ _ _ (proj1 Hn) Hx).
      - rewrite (read_none _ _ _ _ _ _ Hst2 Hx). symmetry. apply (w_read_none _ _ _ _ _ _ _ _ (proj1 Hn) Hx). }
    assert (db_time d1 = db_time (nd_db n)) as Htm.
    { unfold import_justified in G1. destruct (_ <? _); [by apply apply_time in G1 as [-> _]|by apply Ok_inj in G1 as <-]. }
    assert (check_block E (import_block E d1 sb) sb = Ok (Some s)) as Hc2.
    { rewrite <- Hc. unfold check_block, current_slot. rewrite Hread. unfold tab.
      rewrite (has_state_spec _ _ _ _ _ _ Hst2), (has_state_spec _ _ _ _ _ _ (di_st _ _ _ _ _ _ _ (proj1 Hn))).
      replace (db_time (import_block E d1 sb)) with (db_time (nd_db n)) by (cbn; by rewrite Htm). done. }
    assert (import_justified (import_block E d1 sb) s = Ok (import_block E d1 sb)) as Hj2.
    { unfold import_justified. replace (db_just (import_block E d1 sb)) with (db_just d1) by done. rewrite Gj.
      fold b s. destruct (N.ltb_spec (cp_slot (db_just (nd_db n))) (cp_slot (s_justified s))) as [Hlt|Hle].
      - by rewrite N.ltb_irrefl.
      - destruct (N.ltb_spec (cp_slot (db_just (nd_db n))) (cp_slot (s_justified s))); [lia|done]. }
    assert (import_block E (import_block E d1 sb) sb = import_block E d1 sb) as Hb2.
    { unfold import_block. cbn [db_tab with_tab]. rewrite insert_again. by destruct d1. }
    set (n3 := mkNode d3 (record_block_votes E (mkFc ∅ ∅) (b_atts b)) (nd_new (start_node d3)) (nd_known (start_node d3)) (nd_gossip (start_node d3))).
    assert (node_inv A As (<[root_ b := s]> w) n3) as Hn3 by (split; [exact Gi3|apply (mem_start E d3)]).
    destruct (update_head_step E gt vals Hgood Hvals _ _ _ _ Hn3) as (n' & Hu & Hstep & _).
    exists n'. destruct (so_inv _ _ _ _ _ _ _ _ _ Hstep) as [Hi' _].
    split_and!.
    - unfold on_block. change (nd_db (start_node (import_block E d1 sb))) with (import_block E d1 sb).
      rewrite Hc2. cbn [rbind]. rewrite Hj2. cbn [expect rbind]. rewrite Hb2, G2. cbn [expect rbind].
      change (nd_votes (start_node (import_block E d1 sb))) with (mkFc ∅ ∅).
      change (nd_new (start_node (import_block E d1 sb))) with (nd_new (start_node d3)).
      change (nd_known (start_node (import_block E d1 sb))) with (nd_known (start_node d3)).
      change (nd_gossip (start_node (import_block E d1 sb))) with (nd_gossip (start_node d3)).
      fold b n3. rewrite Hu. done.
    - destruct (di_head _ _ _ _ _ _ _ Hi') as [x Hx]. exists x. by apply (w_read _ _ _ _ _ _ _ _ _ Hi').
    - exists s. apply (w_read _ _ _ _ _ _ _ _ _ Hi'). apply lookup_insert.
    - intros r x Hx. apply (w_read _ _ _ _ _ _ _ _ _ Hi').
      destruct (w !! r) as [x'|] eqn:Hw.
      + unfold tab in Hx. rewrite (w_read _ _ _ _ _ _ _ _ _ (proj1 Hn) Hw) in Hx.
        assert (x' = x) as -> by congruence. rewrite lookup_insert_ne; [done|]. intros <-. fold b in Hnone. congruence.
      + unfold tab in Hx. rewrite (w_read_none _ _ _ _ _ _ _ _ (proj1 Hn) Hw) in Hx. congruence.
  Qed.

  (** ** C30 *)
  Lemma stf_mono A As w d r p b post :
    db_inv A As w d -> w !! r = Some p -> stf_ p b = Ok post ->
    cp_slot (s_finalized p) <= cp_slot (s_finalized post) /\ cp_slot (s_justified p) <= cp_slot (s_justified post).
  Proof.
    intros Hi Hw Hst. destruct (di_chain _ _ _ _ _ _ _ Hi _ _ Hw) as (raw & bs & Hc & ->).
    rewrite stf_seal in Hst. destruct (chain_mono_step _ _ _ _ _ _ _ _ _ Hc Hst) as [H1 H2]. done.
  Qed.
  Lemma anc_mono A w d a r sa sr :
    db_inv A 0 w d -> ancestor (db_tab d) a r -> w !! a = Some sa -> w !! r = Some sr ->
    cp_slot (s_finalized sa) <= cp_slot (s_finalized sr).
  Proof.
    intros Hi Han Ha. revert sr. induction Han as [h Hh|r h Hh Han IH]; intros sr Hr.
    - assert (sa = sr) as -> by congruence. lia.
    - destruct (w_header _ _ _ _ _ _ _ _ _ Hi Hr) as (Hh' & _). assert (h = s_header sr) as -> by congruence.
      destruct (decide (r = A)) as [->|Hne].
      + exfalso. (* genesis has no stored parent *)
        destruct (di_anchor _ _ _ _ _ _ _ Hi) as (sA & HA & Hs0). assert (sA = sr) as -> by congruence.
        destruct (di_chain _ _ _ _ _ _ _ Hi _ _ Hr) as (raw & bs & Hc & ->).
        assert (bs = []) as ->.
        { destruct (decide (bs = [])) as [|Hne]; [done|exfalso].
          destruct (exists_last Hne) as (bs' & b & ->). apply chain_snoc_inv in Hc as (s0 & _ & Hst).
          apply C02_block_linkage_pf in Hst as (Hl & _ & _ & _ & Hl5 & _). cbn in Hs0. lia. }
        apply chain_nil in Hc as ->. cbn in Han.
        assert (is_Some (t_headers (db_tab d) !! ZERO)) as [x Hx].
        { inversion Han; eauto. }
        rewrite (zero_header _ _ _ Hgood _ _ _ _ Hi) in Hx. done.
      + destruct (di_link _ _ _ _ _ _ _ Hi _ _ Hr Hne) as (p & b & post & Hp & Hst & ->).
        specialize (IH _ Hp). destruct (stf_mono _ _ _ _ _ _ _ _ Hi Hp Hst) as [Hm _].
        change (cp_slot (s_finalized (stored_state post b))) with (cp_slot (s_finalized post)). lia.
  Qed.

  Lemma fin_of_head A w d s :
    db_inv A 0 w d -> head_ok d -> fin_inv 0 w d -> w !! db_head d = Some s ->
    cp_slot (db_fin d) = cp_slot (s_finalized s).
  Proof.
    intros Hi Hok Hf Hs. destruct (decide (s_slot s = 0)) as [H0|Hn]; [|by rewrite (Hf eq_refl _ Hs Hn)].
    destruct (w_chain_facts _ _ _ Hgood _ _ _ _ _ _ Hi Hs) as (_ & _ & _ & _ & H1 & H2 & _).
    unfold head_ok in Hok. apply descends_in in Hok as Hin. destruct Hin as [[[sl q] Hh] [[sj pj] Hj]].
    assert (cp_slot (db_just d) = 0).
    { destruct (live_just _ _ _ Hvals _ _ _ _ Hi) as [p' Hj']. assert (sj = cp_slot (db_just d)) as -> by congruence.
      destruct (live_w _ _ _ _ _ _ _ _ _ _ Hi Hh) as (x & Hx & -> & _). assert (x = s) as -> by congruence.
      pose proof (descends_slot _ _ _ _ _ _ _ (live_decreasing _ _ _ Hgood Hvals _ _ _ _ Hi) Hok Hh Hj). lia. }
    pose proof (di_fin_just _ _ _ _ _ _ _ Hi). lia.
  Qed.

  Lemma C30_along_chain_pf n0 es1 n1 es2 n2 :
    started E (genesis hb gt vals) n0 -> node_run E n0 es1 n1 -> node_run E n1 es2 n2 ->
    ancestor (tab n2) (db_head (nd_db n1)) (db_head (nd_db n2)) ->
    cp_slot (db_fin (nd_db n1)) <= cp_slot (db_fin (nd_db n2)).
  Proof.
    intros Hs Hr1 Hr2 Han.
    assert (valid_anchor E gt vals (genesis hb gt vals)) as Ha.
    { exists (genesis hb gt vals), []. split; [constructor|by left]. }
    destruct (started_inv E gt vals Hgood Hvals _ n0 Ha Hs) as (w & Hi & Hok).
    change (s_slot (genesis hb gt vals)) with 0 in Hi.
    assert (fin_inv 0 w (nd_db n0)) as Hf.
    { intros _ s Hw Hn. exfalso. destruct (di_anchor _ _ _ _ _ _ _ (proj1 Hi)) as (sA & HA & H0).
      assert (s = sA) as -> by congruence. done. }
    destruct (run_inv E gt vals Hgood Hvals _ _ _ _ _ _ Hi Hr1) as (w1 & Hst1).
    destruct (run_inv E gt vals Hgood Hvals _ _ _ _ _ _ (so_inv _ _ _ _ _ _ _ _ _ Hst1) Hr2) as (w2 & Hst2).
    pose proof (so_head _ _ _ _ _ _ _ _ _ Hst1 Hok) as Hok1. pose proof (so_head _ _ _ _ _ _ _ _ _ Hst2 Hok1) as Hok2.
    pose proof (so_fin _ _ _ _ _ _ _ _ _ Hst1 Hf) as Hf1. pose proof (so_fin _ _ _ _ _ _ _ _ _ Hst2 Hf1) as Hf2.
    destruct (so_inv _ _ _ _ _ _ _ _ _ Hst1) as [Hi1 _]. destruct (so_inv _ _ _ _ _ _ _ _ _ Hst2) as [Hi2 _].
    destruct (di_head _ _ _ _ _ _ _ Hi1) as [s1 Hs1]. destruct (di_head _ _ _ _ _ _ _ Hi2) as [s2 Hs2].
    rewrite (fin_of_head _ _ _ _ Hi1 Hok1 Hf1 Hs1), (fin_of_head _ _ _ _ Hi2 Hok2 Hf2 Hs2).
    apply (anc_mono _ _ _ _ _ _ _ Hi2 Han); [|done]. by apply (so_w _ _ _ _ _ _ _ _ _ Hst2).
  Qed.
End Reach.
