(** A proposed block is imported (C37). *)
From Verif Require Export BuilderLive NodeThms3 NodeThms5.

Section Pool.
  Context (E : Env) (gt : N) (vals : list Validator).
  Context (Hgood : good_hash (e_header E)) (Hvals : lenN vals <= VALIDATOR_REGISTRY_LIMIT) (Hinj : inj_data E).
  Notation node_inv := (node_inv E gt vals).

  Definition sound_buf (b : Buf PayloadEntry) : Prop :=
    forall r e p, bf_data b !! r = Some e -> p ∈ pe_proofs e -> sound_proof E vals (pe_data e) p.
  Definition sound_node (n : Node) : Prop := sound_buf (nd_new n) /\ sound_buf (nd_known n).

  Lemma sound_new cap : sound_buf (buf_new cap).
  Proof. intros r e p H. cbn in H. by rewrite lookup_empty in H. Qed.

  Lemma push_sound b d p b' :
    pool_ok (e_data E) b -> sound_buf b -> sound_proof E vals d p ->
    payload_push (e_data E) b d p = Ok b' -> sound_buf b'.
  Proof.
    intros Hb Hs Hp H. destruct (push_spec _ b d p Hb) as (b1 & H1 & _ & _ & He). rewrite H1 in H.
    apply Ok_inj in H as <-.
    destruct He as [[-> _]|(_ & k & e & _ & _ & Hd & _ & Hdata & Hpe)]; [done|].
    intros r x q Hx Hq. rewrite Hd, without_lookup in Hx. match type of Hx with (if ?c then _ else _) = _ => destruct c; [done|] end.
    destruct (decide (e_data E d = r)) as [<-|Hne].
    - rewrite lookup_insert in Hx. injection Hx as <-.
      assert (pe_data e = d) as Hed.
      { rewrite Hdata. destruct (bf_data b !! e_data E d) as [e0|] eqn:He0; [|done]. cbn.
        apply Hinj. by apply (po_key _ _ Hb). }
      rewrite Hed. apply Hpe in Hq as [->|[Hq _]]; [done|].
      unfold proofs_of in Hq. destruct (bf_data b !! e_data E d) as [e0|] eqn:He0; [|by inversion Hq].
      cbn in Hdata. rewrite <- Hed, Hdata. by eapply Hs.
    - rewrite lookup_insert_ne in Hx by done. by eapply Hs.
  Qed.
  Lemma batch_sound b l b' :
    pool_ok (e_data E) b -> sound_buf b -> (forall d p, (d, p) ∈ l -> sound_proof E vals d p) ->
    payload_push_batch (e_data E) b l = Ok b' -> sound_buf b'.
  Proof.
    revert b. induction l as [|[d p] l IH]; intros b Hb Hs Hl H; cbn in H; [by apply Ok_inj in H as <-|].
    apply rbind_Ok in H as (b1 & H1 & H).
    assert (pool_ok (e_data E) b1) as Hb1.
    { destruct (push_spec _ b d p Hb) as (b2 & H2 & Hb2 & _). rewrite H1 in H2. by apply Ok_inj in H2 as <-. }
    eapply IH; [exact Hb1| | |exact H].
    - eapply push_sound; [exact Hb|exact Hs| |exact H1]. apply Hl. left.
    - intros d' p' Hin. apply Hl. by right.
  Qed.

  Lemma prune_sound f b b' k :
    pool_ok (e_data E) b -> sound_buf b -> payload_prune f b = Ok (b', k) -> sound_buf b'.
  Proof.
    intros Hb Hs H. destruct (prune_pool_spec _ f b Hb) as (b1 & k1 & H1 & _ & _ & Hd & _). rewrite H1 in H.
    apply Ok_inj in H. injection H as <- <-. intros r e p He Hp. apply Hd in He as [He _]. by eapply Hs.
  Qed.
  Lemma promote_sound nw kn nw' kn' :
    pool_ok (e_data E) nw -> pool_ok (e_data E) kn -> sound_buf nw -> sound_buf kn ->
    payload_promote (e_data E) nw kn = Ok (nw', kn') -> sound_buf nw' /\ sound_buf kn'.
  Proof.
    intros Hn Hk Sn Sk H. unfold payload_promote in H. destruct (payload_drain nw) as [x l] eqn:Hd.
    destruct (drain_pool_spec _ nw Hn) as [H1 H2]. rewrite Hd in H1, H2. cbn in H1, H2.
    apply rbind_Ok in H as (k & Hk' & H). apply Ok_inj in H. injection H as <- <-. split.
    - rewrite H1. apply sound_new.
    - eapply batch_sound; [exact Hk|exact Sk| |exact Hk'].
      intros d p Hin. rewrite H2 in Hin. apply elem_of_list_In, in_concat in Hin as (g & Hg & Hin).
      apply in_map_iff in Hg as (r & <- & Hr). destruct (bf_data nw !! r) as [e|] eqn:He; [|by inversion Hin].
      apply in_map_iff in Hin as (q & [= <- <-] & Hq). eapply Sn; [exact He|]. by apply elem_of_list_In.
  Qed.

  Lemma prune_pools_sound n adv n' :
    mem_inv E n -> sound_node n -> prune_pools n adv = Ok n' -> sound_node n'.
  Proof.
    intros (H1 & H2 & _) [S1 S2] H. destruct adv as [f|]; cbn in H; [|by apply Ok_inj in H as <-].
    apply rbind_Ok in H as (g & _ & H). apply rbind_Ok in H as ([nw k1] & Hn & H).
    apply rbind_Ok in H as ([kn k2] & Hk & H). apply Ok_inj in H as <-.
    split; cbn; eapply prune_sound; [exact H1|exact S1|exact Hn|exact H2|exact S2|exact Hk].
  Qed.
  Lemma update_head_sound n n' : mem_inv E n -> sound_node n -> update_head n = Ok n' -> sound_node n'.
  Proof.
    intros Hm Hs H. unfold update_head in H. apply rbind_Ok in H as (h & _ & H). apply rbind_Ok in H as (o & _ & H).
    apply expect_Ok in H. unfold update_checkpoints in H. apply rbind_Ok in H as (d & _ & H).
    eapply (prune_pools_sound (with_db n _)); [exact Hm|exact Hs|exact H].
  Qed.
  Lemma accept_sound n n' : mem_inv E n -> sound_node n -> accept_new_attestations E n = Ok n' -> sound_node n'.
  Proof.
    intros (H1 & H2 & H3) [S1 S2] H. unfold accept_new_attestations in H. apply rbind_Ok in H as ([nw kn] & Hp & H).
    cbn [fst snd] in H. destruct (promote_ok E _ _ H1 H2) as (nw' & kn' & Hp' & O1 & O2).
    rewrite Hp in Hp'. apply Ok_inj in Hp'. injection Hp' as <- <-.
    eapply update_head_sound; [| |exact H]; [by split|]. exact (promote_sound _ _ _ _ H1 H2 S1 S2 Hp).
  Qed.

  Lemma tick_once_sound A As w n hp last n' :
    node_inv A As w n -> sound_node n -> tick_once E n hp last = Ok n' -> sound_node n'.
  Proof.
    intros Hi Hs H. unfold tick_once in H. set (n1 := with_db _ _) in *.
    assert (mem_inv E n1) as Hm by apply Hi. assert (sound_node n1) as Hs1 by done.
    assert (accept_new_attestations E n1 = Ok n' -> sound_node n') as Ha by (by apply accept_sound).
    assert (Ok n1 = Ok (E := unit) n' -> sound_node n') as Hk by (intros Heq; by apply Ok_inj in Heq as <-).
    destruct (interval_of _); auto.
    - destruct (hp && last); auto.
    - unfold update_safe_target in H. apply rbind_Ok in H as (o & _ & H). destruct o as [s|]; [|done].
      destruct (safe_target _ _ _ _); [|done]. apply Ok_inj in H as <-. done.
  Qed.
  Lemma tick_loop_sound A As w k n hp n' :
    node_inv A As w n -> sound_node n -> tick_loop E k n hp = Ok n' -> sound_node n'.
  Proof.
    revert n. induction k as [|k IH]; intros n Hi Hs H; cbn [tick_loop] in H; [by apply Ok_inj in H as <-|].
    apply rbind_Ok in H as (n1 & H1 & H).
    destruct (tick_once_step E gt vals Hgood Hvals _ _ _ _ hp (match k with O => true | _ => false end) Hi) as (n2 & H2 & Hst & _).
    rewrite H1 in H2. apply Ok_inj in H2 as <-.
    eapply IH; [exact (so_inv _ _ _ _ _ _ _ _ _ Hst)| |exact H]. by eapply tick_once_sound.
  Qed.
  Lemma on_tick_sound A As w n ts hp n' :
    node_inv A As w n -> sound_node n -> on_tick E n ts hp = Ok n' -> sound_node n'.
  Proof.
    intros Hi Hs H. unfold on_tick in H. set (n1 := if _ <? _ then _ else n) in H.
    assert (sound_node n1) as Hs1 by (unfold n1; by destruct (_ <? _)).
    assert (node_inv A As w n1) as Hi1.
    { unfold n1. destruct (N.ltb_spec INTERVALS_PER_SLOT ((ts - db_gt (nd_db n) * 1000) / MILLISECONDS_PER_INTERVAL - db_time (nd_db n))); [|done].
      apply (time_step E gt vals Hvals A As w n); [done|]. lia. }
    by eapply tick_loop_sound.
  Qed.

  Lemma batch_node_sound A As w n l n' :
    node_inv A As w n -> sound_node n -> (forall d p, (d, p) ∈ l -> sound_proof E vals d p) ->
    insert_new_batch E n l = Ok n' -> sound_node n'.
  Proof.
    revert n. induction l as [|[d p] l IH]; intros n Hi Hs Hl H; cbn [insert_new_batch] in H; [by apply Ok_inj in H as <-|].
    apply rbind_Ok in H as (n1 & H1 & H).
    destruct (payload_step E gt vals _ _ _ _ d p Hi) as (n2 & H2 & Hst & _). rewrite H1 in H2. apply Ok_inj in H2 as <-.
    eapply IH; [exact (so_inv _ _ _ _ _ _ _ _ _ Hst)| | |exact H].
    - unfold insert_new_aggregated_payload in H1. apply rbind_Ok in H1 as (b & Hb & H1). apply Ok_inj in H1 as <-.
      split; [|apply Hs]. cbn. eapply (push_sound (nd_new n) d p); [apply Hi|apply Hs| |exact Hb]. apply Hl. left.
    - intros d' p' Hin. apply Hl. by right.
  Qed.

  Lemma aggregate_sound A As w n sg n' :
    node_inv A As w n -> sound_node n -> on_gossip_aggregated_attestation E n sg = Ok n' -> sound_node n'.
  Proof.
    intros Hi Hs H. unfold on_gossip_aggregated_attestation in H. apply rbind_Ok in H as (_ & _ & H).
    apply rbind_Ok in H as (o & Ho & H). destruct o as [ts|]; [|done]. apply expect_Ok in Ho.
    assert (s_validators ts = vals) as Hts.
    { destruct (w !! cp_root (ad_target (sg_data sg))) as [s|] eqn:Hw.
      - pose proof (w_read E gt vals _ _ _ _ _ _ (proj1 Hi) Hw) as Hr. unfold tab in Ho. rewrite Hr in Ho.
        apply Ok_inj in Ho. injection Ho as <-.
        by destruct (w_chain_facts E gt vals Hgood _ _ _ _ _ _ (proj1 Hi) Hw) as (_ & _ & _ & Hv & _).
      - pose proof (w_read_none E gt vals _ _ _ _ _ (proj1 Hi) Hw) as Hr. unfold tab in Ho. rewrite Hr in Ho. done. }
    rewrite Hts in H. set (p := sg_proof sg) in *. set (d := sg_data sg) in *.
    destruct (validator_indices (pr_bits p)) as [|v0 l0] eqn:Hvi; [done|].
    destruct (att_keys vals (v0 :: l0)) as [keys|] eqn:Hk; [|done].
    destruct (forallb (e_key_ok E) keys) eqn:Hko; [|done]. cbn [negb] in H.
    destruct (N.leb_spec two32 (ad_slot d)); [done|].
    destruct (e_agg_valid E (pr_bytes p) keys (e_data E d) (ad_slot d)) eqn:Hv; [|done]. cbn [negb] in H.
    apply expect_Ok in H.
    assert (keys = keys_of vals (pr_bits p)) as ->.
    { apply att_keys_spec in Hk as [-> _]. unfold keys_of. by rewrite Hvi. }
    assert (sound_proof E vals d p) as Hsp.
    { split; [| | |done|done].
      - exists v0. apply validator_indices_spec. rewrite Hvi. left.
      - intros v Hv'. apply validator_indices_spec in Hv'. rewrite Hvi in Hv'.
        clear -Hk Hv'. revert Hk. generalize (keys_of vals (pr_bits p)). revert Hv'. generalize (v0 :: l0).
        induction l as [|i l IH]; intros Hin ks Hk; [by inversion Hin|]. cbn [att_keys] in Hk. rewrite getN_lookup in Hk.
        destruct (vals !! N.to_nat i) as [x|] eqn:Hx; [|done]. destruct (att_keys vals l) as [ks'|] eqn:Hl; [|done].
        apply elem_of_cons in Hin as [->|Hin]; [|by eapply IH]. apply lookup_lt_Some in Hx. unfold lenN. lia.
      - apply Forall_forall. intros k Hin. rewrite forallb_forall in Hko. apply Hko. by apply elem_of_list_In. }
    unfold insert_new_aggregated_payload in H. apply rbind_Ok in H as (b & Hb & H). apply Ok_inj in H as <-.
    split; [|apply Hs]. cbn. eapply (push_sound (nd_new n) d p); [apply Hi|apply Hs|exact Hsp|exact Hb].
  Qed.

  Lemma step_sound A As w n e n' :
    node_inv A As w n -> sound_node n -> sound_event E vals e -> node_step E n e = Ok n' -> sound_node n'.
  Proof.
    intros Hn Hs He H. destruct e as [sb|sb|ts hp|sa agg|sg|l keys|slot| |]; cbn [node_step] in H.
    - apply keep_Ok in H as [H|[_ ->]]; [|done]. unfold on_block in H. apply rbind_Ok in H as (o & Hc & H).
      destruct o as [post|]; [|by apply Ok_inj in H as <-].
      apply rbind_Ok in H as (d1 & _ & H). apply rbind_Ok in H as (d3 & _ & H). apply expect_Ok in H.
      eapply update_head_sound; [| |exact H]; [apply Hn|exact Hs].
    - destruct (pends _ _); apply Ok_inj in H as <-; done.
    - by eapply on_tick_sound.
    - apply keep_Ok in H as [H|[_ ->]]; [|done]. unfold on_gossip_attestation in H.
      apply rbind_Ok in H as (_ & _ & H). apply rbind_Ok in H as (o & _ & H).
      destruct o as [ts|]; [|done]. destruct (getN _ _) as [v|]; [|done].
      destruct (negb (e_key_ok E _)); [done|]. destruct (two32 <=? _); [done|].
      destruct (negb (e_sig_ok E _)); [done|]. destruct (negb (e_sig_valid E _ _ _ _)); [done|].
      destruct agg; [|by apply Ok_inj in H as <-].
      apply rbind_Ok in H as (g & _ & H). apply Ok_inj in H as <-. done.
    - apply keep_Ok in H as [H|[_ ->]]; [|done]. by eapply aggregate_sound.
    - apply rbind_Ok in H as (n1 & H1 & H). apply rbind_Ok in H as (g & _ & H). apply Ok_inj in H as <-.
      assert (sound_node n1) as [S1 S2] by (by eapply batch_node_sound). by split.
    - apply rbind_Ok in H as ([n2 h] & H & Heq). apply Ok_inj in Heq as <-. cbn [fst].
      unfold get_proposal_head in H. apply rbind_Ok in H as (n1 & H1 & H). apply rbind_Ok in H as (n3 & H2 & H).
      apply Ok_inj in H. injection H as <- _.
      destruct (on_tick_step E gt vals Hgood Hvals _ _ _ _ (db_gt (nd_db n) * 1000 + slot * MILLISECONDS_PER_SLOT) true Hn) as (n1' & Ht & Hst & _).
      rewrite Ht in H1. apply Ok_inj in H1 as ->.
      eapply accept_sound; [apply (so_inv _ _ _ _ _ _ _ _ _ Hst)| |exact H2]. by eapply on_tick_sound.
    - apply rbind_Ok in H as (d & _ & H). apply Ok_inj in H as <-. done.
    - apply Ok_inj in H as <-. split; apply sound_new.
  Qed.

  Lemma reachable_of_sound n : reachable_sound E gt vals n -> reachable E gt vals n.
  Proof. intros (a & n0 & es & H1 & H2 & H3 & _). by exists a, n0, es. Qed.
  Lemma reachable_pool n : reachable_sound E gt vals n -> sound_node n.
  Proof.
    intros (a & n0 & es & Ha & Hst & Hr & Hf).
    assert (sound_node n0) as H0.
    { destruct Hst as (d & [[_ ->]|(sb & _ & [-> | ->])]); split; apply sound_new. }
    destruct (started_inv E gt vals Hgood Hvals a n0 Ha Hst) as (w0 & Hi0 & _).
    induction Hr as [|es n1 e n2 Hr IH Hs]; [done|].
    apply Forall_app in Hf as [Hf He]. inversion He as [|? ? He' _]; subst.
    destruct (run_inv E gt vals Hgood Hvals _ _ _ _ _ _ Hi0 Hr) as (w1 & Hst1).
    eapply step_sound; [exact (so_inv _ _ _ _ _ _ _ _ _ Hst1)|by apply IH|exact He'|exact Hs].
  Qed.
End Pool.

Section Import.
  Context (E : Env) (P : Prover) (iter : AttestationData -> nat -> list nat -> list nat).
  Context (Hiter : forall d, an_order (iter d)) (gt : N) (vals : list Validator).
  Context (Hgood : good_hash (e_header E)) (Hvals : lenN vals <= VALIDATOR_REGISTRY_LIMIT) (Hinj : inj_data E).
  Notation node_inv := (node_inv E gt vals).
  Notation root_ := (block_root (e_header E) (e_body E)).

  (** The proofs of a built block verify. *)
  Lemma built_sound s slot proposer parent known pool pc b proofs cps :
    s_validators s = vals -> keyed E pool -> sound_pool E vals pool -> complete_prover E P ->
    build_block E P iter s slot proposer parent known pool pc = Ok (b, proofs, cps) ->
    Forall2 (fun a p => pr_bits p = at_bits a /\ sound_proof E vals (at_data a) p) (b_atts b) proofs.
  Proof.
    intros Hvs Hk Hsp Hcp H.
    apply (build_parts E P iter Hiter) in H as (ps & pj2 & r & post & Hb & -> & _ & _ & ->); [|done]. cbn [b_atts].
    destruct (built_shape E P iter Hiter _ _ _ _ _ _ _ _ _ Hk Hb) as (_ & _ & Hpk & _).
    destruct Hb as [Hps _ Hr _]. destruct (picked_spec _ _ _ _ _ _ _ _ Hps) as [Hin _].
    pose proof (picked_grouped E iter Hiter _ _ _ _ _ _ _ _ Hk Hps) as Hg.
    assert (Forall2 (fun (x : H256 * PayloadEntry * EntryScore * gset N) (e : AggAtt * Proof_) => sound_proof E vals (at_data e.1) e.2) ps r) as Hall.
    { apply Forall2_same_length_lookup. split; [destruct (pc_aggregate pc); by eapply Forall2_length|].
      intros i x e Hx He. assert (x ∈ ps) as Hxin by (by eapply elem_of_list_lookup_2).
      destruct (Hin x Hxin) as [Hx1 _].
      assert (forall y, y ∈ chosen iter x.1.1.2 -> at_data y.1 = pick_data x /\ at_bits y.1 = pr_bits y.2 /\ sound_proof E vals (pick_data x) y.2) as Hch.
      { intros y Hy. destruct (chosen_sound E iter Hiter vals pool (x.1.1.1, x.1.1.2) y Hsp Hx1 Hy) as [H1 H2].
        split; [|done]. unfold chosen in Hy. apply elem_of_map in Hy as (p & -> & _). done. }
      destruct (pc_aggregate pc).
      - pose proof (Forall2_lookup_lr _ _ _ _ _ _ Hr Hx He) as Hc. cbn in Hc. rewrite Hvs in Hc.
        destruct (compact_group_ok E P iter Hiter vals (pick_data x) (chosen iter x.1.1.2) Hcp Hch) as (e' & He' & Hs').
        { eapply (gp_some _ Hg). apply elem_of_map. exists x. done. }
        rewrite He' in Hc. apply Ok_inj in Hc as <-.
        apply compact_group_shape in He' as (-> & _); [done|]. intros y Hy. by destruct (Hch y Hy) as (? & ? & _).
      - pose proof (Forall2_lookup_lr _ _ _ _ _ _ Hr Hx He) as Hc. cbn in Hc.
        destruct (Hch e Hc) as (-> & _ & ?). done. }
    clear -Hall Hpk. induction Hall as [|x e ps r H _ IH]; cbn; [constructor|].
    inversion Hpk as [|? ? H1 H2]; subst. constructor; [|by apply IH]. split; [apply (pa_bits _ _ _ _ H1)|done].
  Qed.

  (** Signing and merging the proofs of a block succeed and verify. *)
  Lemma assembled s slot vid b proofs v :
    s_validators s = vals -> complete_prover E P -> vals !! N.to_nat vid = Some v -> can_sign E P vid (v_prop_key v) ->
    b_slot b = slot -> b_proposer b = vid -> slot < two32 ->
    Forall2 (fun a p => pr_bits p = at_bits a /\ sound_proof E vals (at_data a) p) (b_atts b) proofs ->
    exists sb, assemble E P vals slot vid b proofs = Some sb /\ sb_block sb = b /\
      verify_block_signatures E s sb = Ok tt.
  Proof.
    intros Hvs Hcp Hv [Hko Hsig] Hsl Hpr Hlt Hf. unfold assemble.
    destruct (Hsig (slot mod two32) (root_ b)) as (sig & w & -> & Hso & Hw & Hwv).
    rewrite getN_lookup, Hv, Hko, Hso, Hw. cbn [negb].
    assert (merge_inputs E vals proofs = Some (map (fun p => (keys_of vals (pr_bits p), pr_bytes p)) proofs)) as ->.
    { clear -Hf. induction Hf as [|a p atts proofs [_ Hp] _ IH]; cbn [merge_inputs map]; [done|].
      rewrite (keys_ok_proof E vals (at_data a)) by done. by rewrite IH. }
    set (parts := _ ++ [([v_prop_key v], w)]).
    set (msgs := map (fun a => (e_data E (at_data a), ad_slot (at_data a))) (b_atts b) ++ [(root_ b, slot)]).
    rewrite N.mod_small in Hwv by done.
    destruct (cp_merge _ _ Hcp parts msgs) as (bytes & -> & Hbv).
    { apply Forall2_app; [|by repeat constructor].
      clear -Hf. induction Hf as [|a p atts proofs [_ Hp] _ IH]; cbn [map]; constructor; [|done]. apply Hp. }
    eexists. split; [done|]. split; [done|]. apply verify_spec. cbn [sb_block sb_proof].
    exists (map (fun p => keys_of vals (pr_bits p)) proofs), v. rewrite Hvs, Hpr, Hsl.
    split_and!.
    - clear -Hf. induction Hf as [|a p atts proofs [Hb Hp] _ IH]; cbn [map]; constructor; [|done].
      pose proof (keys_range vals p (sp_range _ _ _ _ Hp)) as Hk. apply att_keys_spec in Hk as [Hk Hl].
      unfold indices in *. rewrite Hb in Hk, Hl |- *. done.
    - done.
    - apply Forall_app. split; [|by repeat constructor].
      clear -Hf. induction Hf as [|a p atts proofs [_ Hp] _ IH]; cbn [map]; constructor; [|done]. apply Hp.
    - clear -Hf. induction Hf as [|a p atts proofs [_ Hp] _ IH]; constructor; [|done]. apply Hp.
    - done.
    - unfold parts in Hbv. rewrite map_app, map_map in Hbv. exact Hbv.
  Qed.

  (** *** C37: what a proposer builds is imported *)
  Lemma C37_importable_pf n n1 h sl slot vid v pool pc :
    complete_prover E P -> reachable_sound E gt vals n ->
    get_proposal_head E n slot = Ok (n1, h) -> has_slot (tab n1) h sl -> sl < slot -> slot <= HISTORICAL_ROOTS_LIMIT ->
    is_proposer vid slot (lenN vals) = true -> vals !! N.to_nat vid = Some v -> can_sign E P vid (v_prop_key v) ->
    pool ≡ₚ map_to_list (bf_data (nd_known n1)) ->
    exists b proofs cps sb, produce_block E P iter n1 slot vid pool pc = Ok (b, proofs, cps) /\
      assemble E P vals slot vid b proofs = Some sb /\ sb_block sb = b /\
      b_slot b = slot /\ b_proposer b = vid /\ b_parent b = h /\
      forall n2, reachable E gt vals n2 -> read_state (tab n2) h = read_state (tab n1) h ->
        slot <= db_time (nd_db n2) / 5 + 1 ->
        exists n3, on_block E n2 sb = Ok n3 /\ has_state (tab n3) (root_ b) = true.
  Proof.
    intros Hcp Hrs Hprop Hsl Hlt Hlim Hip Hv Hcs Hperm.
    assert (reachable_sound E gt vals n1) as Hrs1.
    { destruct Hrs as (a & n0 & es & H1 & H2 & H3 & H4). exists a, n0, (es ++ [ev_propose slot]).
      split_and!; try done.
      - eapply nr_snoc; [exact H3|]. cbn. by rewrite Hprop.
      - apply Forall_app. split; [done|]. by repeat constructor. }
    assert (h = db_head (nd_db n1)) as ->.
    { unfold get_proposal_head in Hprop. apply rbind_Ok in Hprop as (x & _ & Hprop).
      apply rbind_Ok in Hprop as (y & _ & Hprop). apply Ok_inj in Hprop. by injection Hprop as <- <-. }
    pose proof (reachable_pool E gt vals Hgood Hvals Hinj n1 Hrs1) as [_ Hsk].
    destruct (reachable_inv E gt vals Hgood Hvals n1 (reachable_of_sound _ _ _ _ Hrs1)) as (A & As & w & Hn & _).
    destruct (di_head _ _ _ _ _ _ _ (proj1 Hn)) as [s Hs].
    pose proof (w_read E gt vals _ _ _ _ _ _ (proj1 Hn) Hs) as Hread.
    destruct (w_header E gt vals _ _ _ _ _ _ (proj1 Hn) Hs) as (Hhd & Hss & _).
    destruct (w_chain_facts E gt vals Hgood _ _ _ _ _ _ (proj1 Hn) Hs) as (_ & _ & _ & Hvs & _).
    assert (s_slot s < slot) as Hslt.
    { destruct Hsl as (hd & Hhd' & <-). unfold tab in Hhd'. assert (hd = s_header s) as -> by congruence. lia. }
    destruct (di_chain _ _ _ _ _ _ _ (proj1 Hn) _ _ Hs) as (raw & bs & Hc & Hraw).
    assert (keyed E pool) as Hkey.
    { destruct Hn as (_ & _ & Hpk & _). split.
      - rewrite Hperm. apply (NoDup_fst_map_to_list (bf_data (nd_known n1))).
      - intros r e Hin. rewrite Hperm in Hin. apply elem_of_map_to_list in Hin. symmetry. by apply (po_key _ _ Hpk). }
    assert (sound_pool E vals pool) as Hsp.
    { intros d p (r & e & Hin & <- & Hp). rewrite Hperm in Hin. apply elem_of_map_to_list in Hin. by eapply Hsk. }
    assert (db_head (nd_db n1) = e_header E (filled_header (e_state E) raw)) as Hroot.
    { rewrite <- (si_hash _ _ _ _ _ (di_st _ _ _ _ _ _ _ (proj1 Hn)) _ _ Hhd). by rewrite Hraw. }
    assert (s_slot raw < slot) as Hslr by (by rewrite Hraw in Hslt).
    set (known := map (fun k : N * H256 * H256 => k.1.2) (map_to_list (t_live (tab n1)))).
    destruct (C37_builds_pf E P iter Hiter gt vals raw bs slot vid known pool pc Hvals Hc Hslr Hlim Hip Hkey Hsp Hcp) as [[[b proofs] cps] Hb].
    rewrite <- Hroot in Hb.
    assert (build_block E P iter s slot vid (db_head (nd_db n1)) known pool pc = Ok (b, proofs, cps)) as Hb'.
    { rewrite Hraw, build_seal. done. }
    pose proof (built_sound _ _ _ _ _ _ _ _ _ _ Hvs Hkey Hsp Hcp Hb') as Hf.
    destruct (C37_shape_pf E P iter Hiter _ _ _ _ _ _ _ _ _ _ Hkey Hb') as (B1 & B2 & B3 & B4 & B5 & B6 & post & B7 & B8).
    assert (slot < two32) as H32.
    { change HISTORICAL_ROOTS_LIMIT with 262144 in Hlim. change two32 with 4294967296. lia. }
    destruct (assembled s slot vid b proofs v Hvs Hcp Hv Hcs B1 B2 H32 Hf) as (sb & Hsb & Hsbb & Hver).
    exists b, proofs, cps, sb. split_and!; try done.
    - unfold produce_block, tab in *. rewrite Hread. cbn [expect rbind]. rewrite Hvs, Hip. done.
    - intros n2 Hr2 Heq Ht.
      destruct (reachable_inv E gt vals Hgood Hvals n2 Hr2) as (A2 & As2 & w2 & Hn2 & _).
      unfold tab in Heq. rewrite Hread in Heq.
      assert (exists o, check_block E (nd_db n2) sb = Ok o) as [o Ho].
      { destruct (has_state (tab n2) (root_ b)) eqn:Hst.
        - exists None. unfold check_block. rewrite Hsbb. unfold tab in Hst. by rewrite Hst.
        - exists (Some (stored_state post b)).
          apply C32_import_gates_pf. rewrite Hsbb. split; [done|]. exists s, post. split; [|done].
          split; rewrite ?Hsbb, ?B1, ?B3; try done.
          + lia.
          + lia.
          + apply verify_spec in Hver. by rewrite Hsbb, B1 in Hver. }
      pose proof (inv_on_block E gt vals Hgood Hvals _ _ _ _ sb Hn2) as Hob. rewrite Ho in Hob.
      assert (exists n3, on_block E n2 sb = Ok n3) as [n3 Hn3].
      { destruct o as [x|]; [destruct Hob as (n3 & _ & _ & H & _); by exists n3|]. destruct Hob as [H _]. by exists n2. }
      exists n3. split; [done|].
      destruct (on_block_step E gt vals Hgood Hvals _ _ _ _ _ _ Hn2 Hn3) as (w' & Hst & Hw').
      rewrite Hsbb in Hw'. unfold tab.
      rewrite (has_state_spec _ _ _ _ _ (root_ b) (di_st _ _ _ _ _ _ _ (proj1 (so_inv _ _ _ _ _ _ _ _ _ Hst)))).
      by apply bool_decide_eq_true.
  Qed.
End Import.

(** *** C37: the block does not depend on the order in which the pool is read *)
Section Order.
  Context (E : Env) (P : Prover) (iter : AttestationData -> nat -> list nat -> list nat).

  Lemma select_order k pj dn known hist n pool pool' :
    NoDup (map fst pool) -> pool ≡ₚ pool' ->
    select_loop iter k pj dn known hist n pool = select_loop iter k pj dn known hist n pool'.
  Proof.
    intros Hnd Hp. revert pj dn. induction k as [|k IH]; intros pj dn; cbn [select_loop]; [done|].
    rewrite (pick_order pj dn known hist n pool pool') by done.
    destruct (pick_best_candidate _ _ _ _ _ _) as [[[[root e] sc] new]|]; [|done].
    destruct (advance _ _ _ _); [|done..]. by rewrite IH.
  Qed.
  Lemma C37_order_pf s slot proposer parent known pool pool' pc :
    NoDup (map fst pool) -> pool ≡ₚ pool' ->
    build_block E P iter s slot proposer parent known pool pc = build_block E P iter s slot proposer parent known pool' pc.
  Proof.
    intros Hnd Hp. unfold build_block.
    assert (select_attestations iter s slot parent known pool (pc_max pc) =
            select_attestations iter s slot parent known pool' (pc_max pc)) as ->; [|done].
    unfold select_attestations. destruct pool as [|c pool].
    { by apply Permutation_nil in Hp as ->. }
    destruct pool' as [|c' pool']; [by apply symmetry, Permutation_nil in Hp|].
    by apply select_order.
  Qed.
End Order.
