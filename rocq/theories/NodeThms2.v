(** Proofs of the node properties, continued. *)
From Verif Require Export NodeThms.

(** ** Ticks (C35) *)
Section Ticks.
  Context (E : Env).

  Lemma apply_time d h j f d' : apply_checkpoints d h j f = Ok d' -> db_time d' = db_time d /\ db_gt d' = db_gt d.
  Proof.
    unfold apply_checkpoints. intros H. apply rbind_Ok in H as ([dels puts] & _ & H). by injection H as <-.
  Qed.
  Lemma prune_pools_db n adv n' : prune_pools n adv = Ok n' -> nd_db n' = nd_db n.
  Proof.
    destruct adv; cbn; [|by intros [= <-]]. intros H. apply rbind_Ok in H as (g & _ & H).
    apply rbind_Ok in H as (a & _ & H). apply rbind_Ok in H as (b & _ & H). by injection H as <-.
  Qed.
  Lemma update_head_time n n' : update_head n = Ok n' -> db_time (nd_db n') = db_time (nd_db n).
  Proof.
    unfold update_head. intros H. apply rbind_Ok in H as (h & _ & H). apply rbind_Ok in H as (f & _ & H).
    apply expect_Ok in H. unfold update_checkpoints in H. apply rbind_Ok in H as (d1 & Hd & H).
    apply prune_pools_db in H. rewrite H. cbn [nd_db with_db]. apply apply_time in Hd as [Hd _].
    by destruct (finalization_advanced _ _).
  Qed.
  Lemma accept_time n n' : accept_new_attestations E n = Ok n' -> db_time (nd_db n') = db_time (nd_db n).
  Proof.
    unfold accept_new_attestations. intros H. apply rbind_Ok in H as (p & _ & H).
    by apply update_head_time in H.
  Qed.
  Lemma safe_time n n' : update_safe_target n = Ok n' -> db_time (nd_db n') = db_time (nd_db n).
  Proof.
    unfold update_safe_target. intros H. apply rbind_Ok in H as (o & _ & H). destruct o; [|done].
    destruct (safe_target _ _ _ _); [|done]. by injection H as <-.
  Qed.
  Lemma duty_time n i p n' : duty E n i p = Ok n' -> db_time (nd_db n') = i.
  Proof.
    unfold duty. destruct (_ =? 4); [intros H; by apply accept_time in H|].
    destruct (_ =? 3); [intros H; by apply safe_time in H|].
    destruct (_ && _); [intros H; by apply accept_time in H|]. by intros [= <-].
  Qed.

  Lemma tick_once_duty n hp last : tick_once E n hp last = duty E n (db_time (nd_db n) + 1) (hp && last).
  Proof.
    unfold tick_once, duty, interval_of. change INTERVALS_PER_SLOT with 5.
    set (i := (db_time (nd_db n) + 1) mod 5).
    assert (i < 5) as Hi by (apply N.mod_lt; lia).
    destruct (N.eqb_spec i 0) as [->|H0]; [done|]. destruct (N.eqb_spec i 1) as [->|H1]; [done|].
    destruct (N.eqb_spec i 2) as [->|H2]; [done|]. destruct (N.eqb_spec i 3) as [->|H3]; [done|].
    destruct (N.eqb_spec i 4) as [->|H4]; [done|]. lia.
  Qed.
  Lemma tick_loop_duties k n hp : tick_loop E k n hp = duties E n (db_time (nd_db n) + 1) k hp.
  Proof.
    revert n. induction k as [|k IH]; intros n; [done|]. cbn [tick_loop duties].
    rewrite tick_once_duty.
    replace (match k with O => true | _ => false end) with (bool_decide (k = O)) by (by destruct k).
    destruct (duty E n (db_time (nd_db n) + 1) (hp && bool_decide (k = O))) as [n1|e|] eqn:Hd; cbn [rbind]; [|done..].
    rewrite IH. by rewrite (duty_time _ _ _ _ Hd).
  Qed.
  Lemma duties_jump n t i k hp :
    duties E (with_db n (set_time (nd_db n) t)) i (S k) hp = duties E n i (S k) hp.
  Proof. done. Qed.

  Lemma C35_tick_duties_pf n ts hp :
    let interval := (ts - db_gt (nd_db n) * 1000) / 800 in
    let first := N.max (db_time (nd_db n) + 1) (interval - 4) in
    on_tick E n ts hp = duties E n first (N.to_nat (interval + 1 - first)) hp.
  Proof.
    intros T first. unfold on_tick. change MILLISECONDS_PER_INTERVAL with 800. change INTERVALS_PER_SLOT with 5.
    fold T. set (t := db_time (nd_db n)) in *.
    destruct (N.ltb_spec 5 (T - t)) as [Hlt|Hle].
    - cbn [nd_db with_db set_time db_time]. rewrite tick_loop_duties. cbn [nd_db with_db set_time db_time].
      replace (N.to_nat (T - (T - 5))) with 5%nat by lia. rewrite duties_jump.
      unfold first. replace (N.max (t + 1) (T - 4)) with (T - 5 + 1) by lia.
      by replace (N.to_nat (T + 1 - (T - 5 + 1))) with 5%nat by lia.
    - rewrite tick_loop_duties. fold t. unfold first.
      destruct (decide (T <= t)) as [Hn|Hn].
      + replace (T - t) with 0 by lia. by replace (T + 1 - N.max (t + 1) (T - 4)) with 0 by lia.
      + replace (N.max (t + 1) (T - 4)) with (t + 1) by lia. do 2 f_equal. lia.
  Qed.
  Lemma C35_clock_pf n ts hp n' :
    on_tick E n ts hp = Ok n' ->
    db_time (nd_db n') = N.max (db_time (nd_db n)) ((ts - db_gt (nd_db n) * 1000) / 800).
  Proof.
    intros H. rewrite C35_tick_duties_pf in H.
    set (T := (ts - db_gt (nd_db n) * 1000) / 800) in *. set (t := db_time (nd_db n)) in *.
    assert (forall k n0 i m, duties E n0 i k hp = Ok m -> db_time (nd_db m) = match k with O => db_time (nd_db n0) | _ => i + N.of_nat k - 1 end) as Hd.
    { clear. intros k. induction k as [|k IH]; intros n0 i m; cbn [duties]; [by intros [= <-]|].
      intros H. apply rbind_Ok in H as (n1 & H1 & H2). apply duty_time in H1. apply IH in H2. destruct k; lia. }
    apply Hd in H. destruct (N.to_nat (T + 1 - N.max (t + 1) (T - 4))) as [|k] eqn:Ek; fold t in H; lia.
  Qed.
  Lemma C35_past_pf n ts hp :
    (ts - db_gt (nd_db n) * 1000) / 800 <= db_time (nd_db n) -> on_tick E n ts hp = Ok n.
  Proof.
    intros Hle. rewrite C35_tick_duties_pf.
    set (T := (ts - db_gt (nd_db n) * 1000) / 800) in *. set (t := db_time (nd_db n)) in *.
    by replace (T + 1 - N.max (t + 1) (T - 4)) with 0 by lia.
  Qed.
End Ticks.

(** ** Import gates (C32) *)
Section Gates.
  Context (E : Env).

  Lemma att_keys_spec vals l ks :
    att_keys vals l = Some ks <->
    ks = omap (fun v => v_att_key <$> vals !! N.to_nat v) l /\ length ks = length l.
  Proof.
    assert (forall l, (length (omap (fun v => v_att_key <$> vals !! N.to_nat v) l) <= length l)%nat) as Hle.
    { intros l0. induction l0 as [|i l0 IH]; cbn; [done|]. destruct (vals !! N.to_nat i); cbn; lia. }
    revert ks. induction l as [|i l IH]; intros ks; cbn [att_keys].
    - split; [by intros [= <-]|]. by intros [-> _].
    - rewrite getN_lookup. cbn [omap list_omap]. destruct (vals !! N.to_nat i) as [v|] eqn:Hv; cbn [fmap option_fmap option_map].
      + destruct (att_keys vals l) as [ks'|] eqn:Hk.
        * destruct (proj1 (IH ks') eq_refl) as [-> Hl]. split.
          -- intros [= <-]. split; [done|]. cbn. by rewrite Hl.
          -- by intros [-> _].
        * split; [done|]. intros [-> Hl]. exfalso. cbn in Hl. injection Hl as Hl.
          by pose proof (proj2 (IH _) (conj eq_refl Hl)).
      + split; [done|]. intros [-> Hl]. exfalso. pose proof (Hle l) as Hl'. cbn [length] in Hl. assert (S (length l) <= length l)%nat; [|lia]. rewrite <- Hl. apply Hl'.
  Qed.

  Lemma components_spec vals atts ks bs :
    components E vals atts = Ok (ks, bs) <->
    Forall2 (fun a k => k = omap (fun v => v_att_key <$> vals !! N.to_nat v) (validator_indices (at_bits a))
                        /\ length k = length (validator_indices (at_bits a))) atts ks /\
    Forall (Forall (fun k => e_key_ok E k = true)) ks /\
    Forall (fun a => ad_slot (at_data a) < two32) atts /\
    bs = map (fun a => (e_data E (at_data a), ad_slot (at_data a))) atts.
  Proof.
    revert ks bs. induction atts as [|a atts IH]; intros ks bs; cbn [components].
    - split.
      + intros [= <- <-]. split_and!; try constructor.
      + intros (H & _ & _ & ->). by inversion H.
    - destruct (att_keys vals (validator_indices (at_bits a))) as [k|] eqn:Hk.
      2:{ split; [done|]. intros (H & _). inversion H as [|? k ? ? Hk' _]; subst.
          apply att_keys_spec in Hk'. congruence. }
      destruct (forallb (e_key_ok E) k) eqn:Hok; cbn [negb].
      2:{ split; [done|]. intros (H & H2 & _). inversion H as [|? k' ? ? Hk' _]; subst.
          apply att_keys_spec in Hk'. simplify_eq. inversion H2 as [|? ? H3 _]; subst.
          exfalso. apply Bool.not_true_iff_false in Hok. apply Hok. apply forallb_forall.
          intros x Hx. rewrite Forall_forall in H3. apply H3. by apply elem_of_list_In. }
      destruct (N.leb_spec two32 (ad_slot (at_data a))) as [Hs|Hs].
      { split; [done|]. intros (_ & _ & H & _). inversion H; subst. lia. }
      assert (Forall (fun k => e_key_ok E k = true) k) as Hok'.
      { apply Forall_forall. intros x Hx. rewrite forallb_forall in Hok. apply Hok. by apply elem_of_list_In. }
      destruct (components E vals atts) as [[ks' bs']|e|] eqn:Hc; cbn [rbind fst snd].
      + destruct (proj1 (IH _ _) eq_refl) as (H1 & H2 & H3 & ->). split.
        * intros [= <- <-]. split_and!; try (by constructor). constructor; [|done]. by apply att_keys_spec.
        * intros (G1 & G2 & G3 & ->). inversion G1 as [|? k' ? ks'' Gk G]; subst.
          apply att_keys_spec in Gk. simplify_eq. inversion G2; subst. inversion G3; subst.
          assert (Ok (ks', map (fun a => (e_data E (at_data a), ad_slot (at_data a))) atts) =
            Ok (E := ImportError) (ks'', map (fun a => (e_data E (at_data a), ad_slot (at_data a))) atts)) as Heq
            by (apply IH; done). by injection Heq as <-.
      + split; [done|]. intros (G1 & G2 & G3 & ->). inversion G1 as [|? k' ? ks'' Gk G]; subst.
        inversion G2; subst. inversion G3; subst.
        by pose proof (proj2 (IH _ _) (conj G (conj H2 (conj H4 eq_refl)))).
      + split; [done|]. intros (G1 & G2 & G3 & ->). inversion G1 as [|? k' ? ks'' Gk G]; subst.
        inversion G2; subst. inversion G3; subst.
        by pose proof (proj2 (IH _ _) (conj G (conj H2 (conj H4 eq_refl)))).
  Qed.

  Lemma verify_spec s sb :
    verify_block_signatures E s sb = Ok tt <->
    exists keys prop,
      Forall2 (fun a ks => ks = omap (fun v => v_att_key <$> s_validators s !! N.to_nat v)
                                   (validator_indices (at_bits a))
                         /\ length ks = length (validator_indices (at_bits a)))
            (b_atts (sb_block sb)) keys /\
      s_validators s !! N.to_nat (b_proposer (sb_block sb)) = Some prop /\
      Forall (Forall (fun k => e_key_ok E k = true)) (keys ++ [[v_prop_key prop]]) /\
      Forall (fun a => ad_slot (at_data a) < two32) (b_atts (sb_block sb)) /\
      b_slot (sb_block sb) < two32 /\
      e_block_valid E (sb_proof sb) (keys ++ [[v_prop_key prop]])
        (map (fun a => (e_data E (at_data a), ad_slot (at_data a))) (b_atts (sb_block sb))
         ++ [(block_root (e_header E) (e_body E) (sb_block sb), b_slot (sb_block sb))]) = true.
  Proof.
    unfold verify_block_signatures.
    destruct (existsb _ (b_atts (sb_block sb))) eqn:Hex.
    { split; [done|]. intros (keys & prop & H & _). exfalso.
      apply existsb_exists in Hex as (a & Ha & Hv). apply existsb_exists in Hv as (v & Hv & Hn).
      apply N.leb_le in Hn. apply elem_of_list_In in Ha, Hv.
      apply elem_of_list_lookup in Ha as [i Ha]. destruct (Forall2_lookup_l _ _ _ _ _ H Ha) as (ks & _ & Hks).
      apply att_keys_spec in Hks. clear -Hks Hv Hn.
      revert ks Hks. induction Hv as [v l|v x l Hv IH]; intros ks; cbn [att_keys].
      - rewrite getN_lookup. rewrite lookup_ge_None_2; [done|]. unfold lenN in Hn. lia.
      - destruct (getN _ x); [|done]. destruct (att_keys _ l) eqn:E1; [|done]. intros _. by eapply IH. }
    rewrite getN_lookup. destruct (s_validators s !! N.to_nat (b_proposer (sb_block sb))) as [prop|] eqn:Hp.
    2:{ split; [done|]. intros (keys & prop & _ & H & _). done. }
    destruct (components E (s_validators s) (b_atts (sb_block sb))) as [[ks bs]|e|] eqn:Hc; cbn [rbind fst snd].
    - apply components_spec in Hc as (H1 & H2 & H3 & ->). split.
      + destruct (e_key_ok E (v_prop_key prop)) eqn:Hk; cbn [negb]; [|done].
        destruct (N.leb_spec two32 (b_slot (sb_block sb))); [done|].
        destruct (e_block_valid E _ _ _) eqn:Hv; [|done]. intros _. exists ks, prop. split_and!; try done.
        apply Forall_app. split; [done|]. by repeat constructor.
      + intros (keys & prop' & G1 & G2 & G3 & G4 & G5 & G6). simplify_eq.
        apply Forall_app in G3 as [G3 G3']. inversion G3' as [|? ? G7 _]; subst. inversion G7 as [|? ? G8 _]; subst.
        rewrite G8. cbn [negb]. destruct (N.leb_spec two32 (b_slot (sb_block sb))); [lia|].
        assert (ks = keys) as ->; [|by rewrite G6].
        clear -H1 G1. revert keys G1. induction H1 as [|a k atts ks [-> _] _ IH]; intros keys G1; inversion G1 as [|? k' ? ? [-> _]]; subst; [done|].
        f_equal. by apply IH.
    - split; [done|]. intros (keys & prop' & G1 & G2 & G3 & G4 & G5 & G6).
      apply Forall_app in G3 as [G3 _].
      pose proof (proj2 (components_spec _ _ _ _) (conj G1 (conj G3 (conj G4 eq_refl)))) as Hx. congruence.
    - split; [done|]. intros (keys & prop' & G1 & G2 & G3 & G4 & G5 & G6).
      apply Forall_app in G3 as [G3 _].
      pose proof (proj2 (components_spec _ _ _ _) (conj G1 (conj G3 (conj G4 eq_refl)))) as Hx. congruence.
  Qed.

  Lemma verify_no_panic s sb : verify_block_signatures E s sb <> Panic.
  Proof.
    unfold verify_block_signatures. destruct (existsb _ _); [done|]. destruct (getN _ _); [|done].
    destruct (components E (s_validators s) (b_atts (sb_block sb))) eqn:Hc; cbn [rbind].
    - destruct (negb _); [done|]. destruct (_ <=? _); [done|]. by destruct (e_block_valid _ _ _ _).
    - done.
    - exfalso. revert Hc. generalize (b_atts (sb_block sb)). intros l. induction l as [|a l IH]; [done|].
      cbn [components]. destruct (att_keys _ _); [|done]. destruct (negb _); [done|]. destruct (_ <=? _); [done|].
      destruct (components E (s_validators s) l); done.
  Qed.

  Lemma C32_import_gates_pf d sb post :
    check_block E d sb = Ok (Some post) <->
    has_state (db_tab d) (block_root (e_header E) (e_body E) (sb_block sb)) = false /\
    exists parent s, import_gates E d sb parent /\
      state_transition (e_state E) (e_header E) (e_body E) parent (sb_block sb) = Ok s /\
      post = stored_state s (sb_block sb).
  Proof.
    unfold check_block. destruct (has_state _ _); [split; [done|by intros [? _]]|].
    set (b := sb_block sb).
    destruct (read_state (db_tab d) (b_parent b)) as [[parent|]|e|] eqn:Hr; cbn [expect rbind].
    2-4: split; [done|]; intros (_ & parent & s & [Hp _ _ _ _ _] & _); fold b in Hp; congruence.
    destruct (N.ltb_spec HISTORICAL_ROOTS_LIMIT (b_slot b - s_slot parent)) as [H1|H1].
    { split; [done|]. intros (_ & parent' & s & [Hp H _ _ _ _] & _). fold b in Hp, H. assert (parent' = parent) as -> by congruence. lia. }
    unfold current_slot. change INTERVALS_PER_SLOT with 5.
    destruct (N.ltb_spec (db_time d / 5 + 1) (b_slot b)) as [H2|H2].
    { split; [done|]. intros (_ & parent' & s & [Hp _ H _ _ _] & _). fold b in Hp, H. lia. }
    unfold has_duplicate_data. destruct (bool_decide (NoDup (map at_data (b_atts b)))) eqn:H3; cbn [negb].
    2:{ split; [done|]. intros (_ & parent' & s & [Hp _ _ H _ _] & _). fold b in Hp, H.
        by apply bool_decide_eq_false in H3. }
    apply bool_decide_eq_true in H3. change MAX_ATTESTATIONS_DATA with 8.
    destruct (N.ltb_spec 8 (lenN (b_atts b))) as [H4|H4].
    { split; [done|]. intros (_ & parent' & s & [Hp _ _ _ H _] & _). fold b in Hp, H. lia. }
    destruct (verify_block_signatures E parent sb) as [[]|e|] eqn:Hv; cbn [rbind].
    2,3: split; [done|]; intros (_ & parent' & s & [Hp _ _ _ _ H] & _); fold b in Hp; assert (parent' = parent) as -> by congruence;
      apply verify_spec in H; congruence.
    apply verify_spec in Hv.
    destruct (state_transition (e_state E) (e_header E) (e_body E) parent b) as [s|e|] eqn:Hst.
    - split.
      + intros [= <-]. split; [done|]. exists parent, s. split; [by split|]. done.
      + intros (_ & parent' & s' & [Hp _ _ _ _ _] & Hs' & ->). fold b in Hp. assert (parent' = parent) as -> by congruence.
        assert (s' = s) as -> by congruence. done.
    - split; [done|]. intros (_ & parent' & s' & [Hp _ _ _ _ _] & Hs' & ->). fold b in Hp. congruence.
    - split; [done|]. intros (_ & parent' & s' & [Hp _ _ _ _ _] & Hs' & ->). fold b in Hp. congruence.
  Qed.
End Gates.
