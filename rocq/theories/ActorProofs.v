(** Actor proofs: what each node event does to the stored blocks, and the actor
    as a sequence of node events. *)
From Verif Require Export ActorEasy NodeThms5.

Lemma run_app E n es1 n1 es2 n2 :
  node_run E n es1 n1 -> node_run E n1 es2 n2 -> node_run E n (es1 ++ es2) n2.
Proof.
  intros H1 H2. induction H2 as [|es m1 e m2 H IH Hs]; [by rewrite app_nil_r|].
  rewrite app_assoc. by econstructor.
Qed.
Lemma run_one E n e n' : node_step E n e = Ok n' -> node_run E n [e] n'.
Proof. intros H. change [e] with ([] ++ [e]). econstructor; [constructor|done]. Qed.
Lemma run_event E n es n1 e n2 : node_run E n es n1 -> node_step E n1 e = Ok n2 -> exists es', node_run E n es' n2.
Proof. intros H1 H2. eexists. by econstructor. Qed.

(** Headers, bodies and proofs. *)
Definition same_rows (t t' : Tables) : Prop :=
  t_headers t' = t_headers t /\ t_bodies t' = t_bodies t /\ t_proofs t' = t_proofs t.
Lemma rows_refl t : same_rows t t. Proof. done. Qed.
Lemma rows_trans t t1 t2 : same_rows t t1 -> same_rows t1 t2 -> same_rows t t2.
Proof. intros (H1 & H2 & H3) (G1 & G2 & G3). unfold same_rows. split_and!; congruence. Qed.
Lemma rows_signed hb t t' r : same_rows t t' -> get_signed_block hb t' r = get_signed_block hb t r.
Proof. intros (H1 & H2 & H3). unfold get_signed_block. by rewrite H1, H2, H3. Qed.

Lemma apply_rows d h j f d' : apply_checkpoints d h j f = Ok d' ->
  same_rows (db_tab d) (db_tab d') /\ db_fin d' = default (db_fin d) f.
Proof.
  intros H. unfold apply_checkpoints in H. apply rbind_Ok in H as ([dels puts] & _ & H). by injection H as <-.
Qed.
Lemma prune_after_rows d f : same_rows (db_tab d) (db_tab (prune_after d f)) /\ db_fin (prune_after d f) = db_fin d.
Proof. by destruct f. Qed.
Lemma insert_state_rows hh t c r s t' c' :
  insert_state hh t c r s = Ok (t', c') -> same_rows t t'.
Proof.
  unfold insert_state. intros H. apply rbind_Ok in H as ([[p|] c1] & _ & H); [|done].
  destruct (diff_from_states hh p s) as [d| |]; [|done..].
  destruct (_ <? _) in H; by injection H as <- _.
Qed.

(** Where a finalized checkpoint comes from. *)
Definition fin_from (w : gmap H256 State) (d d' : Db) : Prop :=
  db_fin d' = db_fin d \/ exists r s, w !! r = Some s /\ db_fin d' = s_finalized s.

Section Detail.
  Context (E : Env) (gt : N) (vals : list Validator).
  Context (Hgood : good_hash (e_header E)) (Hvals : lenN vals <= VALIDATOR_REGISTRY_LIMIT).
  Notation hs := (e_state E).
  Notation hh := (e_header E).
  Notation hb := (e_body E).
  Notation root_ := (block_root hh hb).
  Notation stf_ := (state_transition hs hh hb).
  Notation db_inv := (db_inv E gt vals).
  Notation node_inv := (node_inv E gt vals).
  Notation step_ok := (step_ok E gt vals).

  Definition quiet (w : gmap H256 State) (n n' : Node) : Prop :=
    same_rows (tab n) (tab n') /\ fin_from w (nd_db n) (nd_db n').
  Lemma quiet_refl w n : quiet w n n.
  Proof. split; [done|by left]. Qed.
  Lemma quiet_db w n n' : nd_db n' = nd_db n -> quiet w n n'.
  Proof. intros H. unfold quiet, tab, fin_from. rewrite H. split; [done|by left]. Qed.
  Lemma quiet_trans w n n1 n2 : quiet w n n1 -> quiet w n1 n2 -> quiet w n n2.
  Proof.
    intros [H1 H2] [G1 G2]. split; [by eapply rows_trans|].
    destruct G2 as [G2|?]; [|by right]. unfold fin_from. rewrite G2. done.
  Qed.

  Lemma fin_case A As w n h s o :
    db_inv A As w (nd_db n) -> w !! h = Some s -> head_finalized (tab n) h = Ok o ->
    forall d', db_fin d' = default (db_fin (nd_db n)) o -> fin_from w (nd_db n) d'.
  Proof.
    intros Hi Hs Ho d' Hf. destruct (head_finalized_spec E gt vals Hgood Hvals _ _ _ _ _ _ Hi Hs) as (o' & Ho' & Hfs & _).
    assert (o' = o) as -> by (unfold tab in Ho; congruence).
    destruct o as [f|]; cbn in Hf; [|by left]. right. exists h, s. split; [done|].
    destruct (Hfs f eq_refl) as [-> _]. done.
  Qed.

  Lemma update_head_quiet A As w n n' : node_inv A As w n -> update_head n = Ok n' -> quiet w n n'.
  Proof.
    intros [Hi Hm] H. destruct (update_head_spec E gt vals Hgood Hvals _ _ _ _ Hi Hm)
      as (n1 & h & s & o & d1 & Hu & Hg & Hs & Ho & Hap & Hdb & Hi1 & Hi2 & Hm' & Hok & Hhu & Hv & Hf).
    assert (n1 = n') as -> by congruence. split.
    - unfold tab. split_and!; [apply (hu_headers _ _ _ Hhu)|apply (hu_bodies _ _ _ Hhu)|apply (hu_proofs _ _ _ Hhu)].
    - by eapply fin_case.
  Qed.
  Lemma accept_quiet A As w n n' : node_inv A As w n -> accept_new_attestations E n = Ok n' -> quiet w n n'.
  Proof.
    intros [Hi (H1 & H2 & H3)] H. unfold accept_new_attestations in H.
    destruct (promote_ok E _ _ H1 H2) as (nw & kn & Hp & Hn & Hk). rewrite Hp in H. cbn [rbind fst snd] in H.
    apply (quiet_trans _ _ (mkNode (nd_db n) (promote (e_data E) (nd_votes n)) nw kn (nd_gossip n))).
    - by apply quiet_db.
    - eapply update_head_quiet; [|exact H]. split; [done|]. by split.
  Qed.
  Lemma time_quiet w n t : quiet w n (with_db n (set_time (nd_db n) t)).
  Proof. split; [done|by left]. Qed.
  Lemma tick_once_quiet A As w n hp last n' :
    node_inv A As w n -> tick_once E n hp last = Ok n' -> quiet w n n'.
  Proof.
    intros Hi H. unfold tick_once in H. set (n1 := with_db _ _) in *.
    assert (node_inv A As w n1) as Hi1.
    { assert (step_ok A As w w n n1) as Hs by (apply time_step; [done|done|lia]). apply Hs. }
    pose proof (time_quiet w n (db_time (nd_db n) + 1)) as Hq. fold n1 in Hq.
    assert (accept_new_attestations E n1 = Ok n' -> quiet w n n') as Hacc.
    { intros Ha. eapply quiet_trans; [exact Hq|]. by eapply accept_quiet. }
    destruct (interval_of _); try (by injection H as <-); auto.
    - destruct (hp && last); [auto|by injection H as <-].
    - unfold update_safe_target in H. apply rbind_Ok in H as ([s|] & _ & H); [|done].
      destruct (safe_target _ _ _ _); [|done]. injection H as <-. eapply quiet_trans; [exact Hq|].
      split; [done|by left].
  Qed.
  Lemma tick_loop_quiet A As w k n hp n' :
    node_inv A As w n -> tick_loop E k n hp = Ok n' -> quiet w n n'.
  Proof.
    revert n. induction k as [|k IH]; intros n Hi H; cbn [tick_loop] in H.
    - injection H as <-. apply quiet_refl.
    - apply rbind_Ok in H as (n1 & H1 & H). eapply quiet_trans; [by eapply tick_once_quiet|].
      apply IH; [|done].
      destruct (tick_once_step E gt vals Hgood Hvals _ _ _ _ hp (match k with O => true | _ => false end) Hi) as (n1' & Ht & Hs & _).
      assert (n1' = n1) as <- by congruence. apply (so_inv _ _ _ _ _ _ _ _ _ Hs).
  Qed.
  Lemma on_tick_quiet A As w n ts hp n' : node_inv A As w n -> on_tick E n ts hp = Ok n' -> quiet w n n'.
  Proof.
    intros Hi H. unfold on_tick in H.
    set (time := (ts - _) / _) in *. set (n1 := if _ <? _ then _ else n) in *.
    assert (node_inv A As w n1 /\ quiet w n n1) as [Hi1 Hq].
    { unfold n1. destruct (N.ltb_spec INTERVALS_PER_SLOT (time - db_time (nd_db n))) as [Hlt|_].
      - change INTERVALS_PER_SLOT with 5 in *. split; [|apply time_quiet].
        assert (step_ok A As w w n (with_db n (set_time (nd_db n) (time - 5)))) as Hs by (apply time_step; [done|done|lia]).
        apply Hs.
      - split; [done|apply quiet_refl]. }
    eapply quiet_trans; [exact Hq|]. by eapply tick_loop_quiet.
  Qed.
  Lemma batch_db n l n' : insert_new_batch E n l = Ok n' -> nd_db n' = nd_db n.
  Proof.
    revert n. induction l as [|[a p] l IH]; intros n H; cbn [insert_new_batch] in H; [by injection H as <-|].
    apply rbind_Ok in H as (n1 & H1 & H). rewrite (IH _ H). unfold insert_new_aggregated_payload in H1.
    apply rbind_Ok in H1 as (b & _ & H1). by injection H1 as <-.
  Qed.

  (** What an event may do, in terms of stored blocks, states, finalized checkpoint. *)
  Definition detail (w w' : gmap H256 State) (n n' : Node) (e : node_event) : Prop :=
    fin_from w' (nd_db n) (nd_db n') /\
    match e with
    | ev_block sb =>
        let b := sb_block sb in
        (w' = w /\ n' = n) \/
        (exists p post, w !! root_ b = None /\ w !! b_parent b = Some p /\ stf_ p b = Ok post /\
           on_block E n sb = Ok n' /\
           w' = <[root_ b := stored_state post b]> w /\
           same_rows (write_signed_block hb (tab n) (root_ b) sb) (tab n'))
    | ev_pending sb => w' = w /\ db_fin (nd_db n') = db_fin (nd_db n) /\
        (n' = n \/ tab n' = write_signed_block hb (tab n) (root_ (sb_block sb)) sb)
    | ev_prune => w' = w /\ t_headers (tab n') = t_headers (tab n) /\ t_bodies (tab n') = t_bodies (tab n) /\
        db_fin (nd_db n') = db_fin (nd_db n) /\
        forall k p, t_proofs (tab n) !! k = Some p -> t_proofs (tab n') !! k = Some p \/
          k.1 < cp_slot (db_fin (nd_db n)) /\
          exists h, t_headers (tab n) !! db_head (nd_db n) = Some h /\ k.1 + BLOCK_PROOF_PRUNING_RANGE < h_slot h
    | _ => w' = w /\ same_rows (tab n) (tab n')
    end.

  Lemma node_step_detail A As w n e n' :
    node_inv A As w n -> node_step E n e = Ok n' ->
    exists w', step_ok A As w w' n n' /\ detail w w' n n' e.
  Proof.
    intros Hn H.
    assert ((forall sb, e <> ev_block sb) -> step_ok A As w w n n') as Hs1
      by (intros Hne; by eapply node_step_same).
    destruct e as [sb|sb|ts hp|sa agg|sg|l keys|slot| |]; cbn [node_step] in H; unfold detail.
    - apply keep_Ok in H as [H|[_ ->]].
      2:{ exists w. split; [by apply step_refl|]. split; [by left|]. by left. }
      pose proof H as Hon. unfold on_block in H. apply rbind_Ok in H as (o & Hc & H).
      destruct (check_block_spec E gt vals _ _ _ _ _ _ (proj1 Hn) Hc) as [[-> Hr]|(p & post & Hnone & Hpar & Hst & ->)].
      + injection H as <-. exists w. split; [by apply step_refl|]. split; [by left|]. by left.
      + destruct (import_spec E gt vals Hgood Hvals _ _ _ _ sb _ _ Hn Hnone Hpar Hst) as
          (d1 & d3 & n1 & h & o & d4 & H1 & Hi1 & Hj1 & Hd1 & Hf1 & H2 & Hi3 & H3 & H4 & _ & H5 & H6 & H7 & _ & H8 & Hhu & _ & _ & _ & _ & Hf3).
        rewrite H1 in H. cbn [expect rbind] in H. rewrite H2 in H. cbn [expect rbind] in H. rewrite H3 in H.
        cbn [expect] in H. injection H as <-. eexists. split; [exact H4|]. split.
        * assert (fin_from (<[root_ (sb_block sb) := stored_state post (sb_block sb)]> w) d3 (nd_db n1)) as Hfin.
          { pose proof H3 as Hu. unfold update_head in Hu.
            set (n3 := mkNode d3 _ _ _ _) in *.
            assert (node_inv A As (<[root_ (sb_block sb) := stored_state post (sb_block sb)]> w) n3) as Hn3
              by (split; [done|apply Hn]).
            apply (update_head_quiet _ _ _ _ _ Hn3 H3). }
          unfold fin_from in *. rewrite Hf3, Hf1 in Hfin. done.
        * right. exists p, post. split_and!; try done.
          eapply rows_trans; [|unfold tab; split_and!; [apply (hu_headers _ _ _ Hhu)|apply (hu_bodies _ _ _ Hhu)|apply (hu_proofs _ _ _ Hhu)]].
          unfold import_state in H2. apply rbind_Ok in H2 as ([t3 c3] & Hins & H2). injection H2 as <-.
          cbn [db_tab with_tab fst]. apply insert_state_rows in Hins. eapply rows_trans; [|exact Hins].
          cbn [db_tab with_tab import_block]. unfold insert_signed_block.
          assert (same_rows (tab n) (db_tab d1)) as (R1 & R2 & R3).
          { unfold import_justified in H1. destruct (_ <? _) in H1; [|injection H1 as <-; done].
            by apply apply_rows in H1 as [? _]. }
          unfold same_rows, write_signed_block. destruct (_ =? _); cbn; by rewrite ?R1, ?R2, ?R3.
    - destruct (pends n (sb_block sb)); apply Ok_inj in H as <-.
      + exists w. split; [by apply Hs1|]. split; [by left|]. split_and!; [done|done|by right].
      + exists w. split; [by apply Hs1|]. split; [by left|]. split_and!; [done|done|by left].
    - exists w. split; [by apply Hs1|]. destruct (on_tick_quiet _ _ _ _ _ _ _ Hn H) as [? ?]. done.
    - exists w. split; [by apply Hs1|].
      apply keep_Ok in H as [H|[_ ->]]; [|split; [by left|done]].
      destruct (attestation_step E gt vals _ _ _ _ _ _ _ Hn H) as [_ Hd].
      unfold tab, fin_from. rewrite Hd. split; [by left|done].
    - exists w. split; [by apply Hs1|].
      apply keep_Ok in H as [H|[_ ->]]; [|split; [by left|done]].
      destruct (aggregate_step E gt vals _ _ _ _ _ _ Hn H) as [_ Hd].
      unfold tab, fin_from. rewrite Hd. split; [by left|done].
    - exists w. split; [by apply Hs1|]. apply rbind_Ok in H as (n1 & H1 & H).
      apply rbind_Ok in H as (g & Hg & H). injection H as <-. apply batch_db in H1.
      unfold tab, fin_from. cbn [nd_db]. rewrite H1. split; [by left|done].
    - exists w. split; [by apply Hs1|]. apply rbind_Ok in H as ([n2 h] & H & Heq). injection Heq as <-. cbn [fst].
      unfold get_proposal_head in H. apply rbind_Ok in H as (n1 & H1 & H). apply rbind_Ok in H as (n2' & H2 & H).
      injection H as <- <-. 
      destruct (on_tick_step E gt vals Hgood Hvals _ _ _ _ (db_gt (nd_db n) * 1000 + slot * MILLISECONDS_PER_SLOT) true Hn) as (n1' & Ht & Hs & _).
      assert (n1' = n1) as -> by congruence.
      pose proof (on_tick_quiet _ _ _ _ _ _ _ Hn H1) as Q1.
      pose proof (accept_quiet _ _ _ _ _ (so_inv _ _ _ _ _ _ _ _ _ Hs) H2) as Q2.
      destruct (quiet_trans _ _ _ _ Q1 Q2). done.
    - exists w. split; [by apply Hs1|]. apply rbind_Ok in H as (d & H & Heq). injection Heq as <-.
      unfold prune_old_data in H. destruct (get_header (db_tab (nd_db n)) (db_head (nd_db n))) as [h|] eqn:Hh; [|done].
      injection H as <-. split; [by left|]. cbn [nd_db with_db tab db_tab with_tab db_fin].
      unfold tab. cbn [nd_db with_db db_tab with_tab].
      unfold prune_old_block_proofs.
      destruct (N.ltb_spec (cp_slot (db_fin (nd_db n))) (h_slot h - BLOCK_PROOF_PRUNING_RANGE)); cbn [orb fst];
        [split_and!; try done; by left|].
      destruct (N.eqb_spec (h_slot h - BLOCK_PROOF_PRUNING_RANGE) 0); cbn [orb fst];
        [split_and!; try done; by left|].
      split_and!; try done. intros k p Hk. cbn [t_proofs set_proofs].
      destruct (decide (k.1 < h_slot h - BLOCK_PROOF_PRUNING_RANGE)) as [Hlt|Hge].
      + right. split; [lia|]. exists h. split; [done|lia].
      + left. apply map_filter_lookup_Some. done.
    - injection H as <-. exists w. split; [by apply Hs1|]. split; [by left|]. done.
  Qed.
End Detail.
