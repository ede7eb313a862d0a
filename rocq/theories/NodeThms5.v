(** Import acceptance and accepted gossip votes in terms of the rules. *)
From Verif Require Export NodeThms4.

Section Accept.
  Context (E : Env).

  Lemma C32_imported_pf n sb n' :
    has_state (tab n) (block_root (e_header E) (e_body E) (sb_block sb)) = false ->
    on_block E n sb = Ok n' ->
    exists parent post, import_gates E (nd_db n) sb parent /\
      state_transition (e_state E) (e_header E) (e_body E) parent (sb_block sb) = Ok post.
  Proof.
    intros Hns Hok. unfold on_block in Hok. apply rbind_Ok in Hok as (o & Hc & Hok).
    destruct o as [post|].
    - apply C32_import_gates_pf in Hc as (_ & parent & s & Hg & Hs & _). by exists parent, s.
    - exfalso. unfold check_block in Hc. unfold tab in Hns. rewrite Hns in Hc.
      destruct (expect _) as [[p|]| |]; cbn [rbind] in Hc; try done.
      destruct (_ <? _) in Hc; [done|]. destruct (_ <? _) in Hc; [done|].
      destruct (has_duplicate_data _); [done|]. destruct (_ <? _) in Hc; [done|].
      destruct (verify_block_signatures _ _ _); cbn [rbind] in Hc; try done.
      by destruct (state_transition _ _ _ _ _).
  Qed.

  Context (gt : N) (vals : list Validator).
  Context (Hgood : good_hash (e_header E)) (Hvals : lenN vals <= VALIDATOR_REGISTRY_LIMIT).

  Lemma C32_complete_pf n sb parent post :
    reachable E gt vals n ->
    has_state (tab n) (block_root (e_header E) (e_body E) (sb_block sb)) = false ->
    import_gates E (nd_db n) sb parent ->
    state_transition (e_state E) (e_header E) (e_body E) parent (sb_block sb) = Ok post ->
    exists n', on_block E n sb = Ok n'.
  Proof.
    intros Hr Hns Hg Hs. destruct (reachable_inv E gt vals Hgood Hvals _ Hr) as (A & As & w & Hn & _).
    pose proof (inv_on_block E gt vals Hgood Hvals _ _ _ _ sb Hn) as H.
    assert (check_block E (nd_db n) sb = Ok (Some (stored_state post (sb_block sb)))) as Hc.
    { apply C32_import_gates_pf. split; [done|]. by exists parent, post. }
    rewrite Hc in H. destruct H as (n' & _ & _ & H & _). by exists n'.
  Qed.

  Lemma C33_reachable_pf n a :
    acyclic_hash (e_header E) -> reachable E gt vals n -> db_time (nd_db n) + 1 < two64 - 1 ->
    validate_attestation_data (nd_db n) a <> Panic /\
    (validate_attestation_data (nd_db n) a = Ok tt <-> vote_ok (nd_db n) a).
  Proof.
    intros Hac Hr Ht. destruct (reachable_inv E gt vals Hgood Hvals _ Hr) as (A & As & w & [Hi _] & _).
    apply (C33_validation_iff_pf (e_header E)); [done| |done].
    exact (inv_hashed E gt vals _ _ _ _ Hi).
  Qed.

  Lemma C33_aggregate_pf n sg n' :
    acyclic_hash (e_header E) -> reachable E gt vals n -> db_time (nd_db n) + 1 < two64 - 1 ->
    on_gossip_aggregated_attestation E n sg = Ok n' ->
    let a := sg_data sg in
    vote_ok (nd_db n) a /\ validator_indices (pr_bits (sg_proof sg)) <> [] /\
    exists ts keys, read_state (tab n) (cp_root (ad_target a)) = Ok (Some ts) /\
      keys = omap (fun v => v_att_key <$> s_validators ts !! N.to_nat v) (validator_indices (pr_bits (sg_proof sg))) /\
      length keys = length (validator_indices (pr_bits (sg_proof sg))) /\
      e_agg_valid E (pr_bytes (sg_proof sg)) keys (e_data E a) (ad_slot a) = true /\
      nd_votes n' = record_new (e_data E) (nd_votes n) (pr_bits (sg_proof sg)) a /\
      nd_db n' = nd_db n.
  Proof.
    intros Hac Hr Ht Hok a. unfold on_gossip_aggregated_attestation in Hok. fold a in Hok.
    apply rbind_Ok in Hok as ([] & Hv & Hok).
    apply (C33_reachable_pf n a Hac Hr Ht) in Hv. split; [done|].
    apply rbind_Ok in Hok as (o & Ho & Hok). destruct o as [ts|]; [|done].
    assert (read_state (tab n) (cp_root (ad_target a)) = Ok (Some ts)) as Hrs.
    { by destruct (read_state (tab n) (cp_root (ad_target a))) as [[]| |]; cbn in Ho; simplify_eq. }
    set (l := validator_indices (pr_bits (sg_proof sg))) in *.
    assert (match att_keys (s_validators ts) l with
            | None => Err ValidatorNotInState
            | Some keys =>
                if negb (forallb (e_key_ok E) keys) then Err PubkeyDecodingFailed
                else if two32 <=? ad_slot a then Panic
                else if negb (e_agg_valid E (pr_bytes (sg_proof sg)) keys (e_data E a) (ad_slot a))
                then Err AggregateVerificationFailed
                else expect (insert_new_aggregated_payload E n a (sg_proof sg))
            end = Ok n' /\ l <> []) as [Hok' Hne] by (destruct l; done).
    split; [done|]. clear Hok.
    destruct (att_keys (s_validators ts) l) as [keys|] eqn:Hk; [|done].
    destruct (negb (forallb _ _)); [done|]. destruct (two32 <=? _); [done|].
    destruct (e_agg_valid E _ keys _ _) eqn:Hag; [|done]. cbn [negb] in Hok'.
    apply att_keys_spec in Hk as [Hk1 Hk2]. exists ts, keys.
    unfold insert_new_aggregated_payload in Hok'.
    destruct (payload_push (e_data E) (nd_new n) a (sg_proof sg)) as [b| |]; cbn in Hok'; try done.
    injection Hok' as <-. split_and!; done.
  Qed.

  Lemma C33_signature_pf n sa agg n' :
    acyclic_hash (e_header E) -> reachable E gt vals n -> db_time (nd_db n) + 1 < two64 - 1 ->
    on_gossip_attestation E n sa agg = Ok n' ->
    let a := sa_data sa in
    vote_ok (nd_db n) a /\
    exists ts v, read_state (tab n) (cp_root (ad_target a)) = Ok (Some ts) /\
      s_validators ts !! N.to_nat (sa_validator sa) = Some v /\
      e_sig_valid E (v_att_key v) (ad_slot a) (e_data E a) (sa_sig sa) = true /\
      nd_votes n' = nd_votes n /\ nd_db n' = nd_db n /\ (agg = false -> n' = n).
  Proof.
    intros Hac Hr Ht Hok a. unfold on_gossip_attestation in Hok. fold a in Hok.
    apply rbind_Ok in Hok as ([] & Hv & Hok).
    apply (C33_reachable_pf n a Hac Hr Ht) in Hv. split; [done|].
    apply rbind_Ok in Hok as (o & Ho & Hok). destruct o as [ts|]; [|done].
    assert (read_state (tab n) (cp_root (ad_target a)) = Ok (Some ts)) as Hrs.
    { by destruct (read_state (tab n) (cp_root (ad_target a))) as [[]| |]; cbn in Ho; simplify_eq. }
    destruct (getN (s_validators ts) (sa_validator sa)) as [v|] eqn:Hg; [|done].
    destruct (negb (e_key_ok E _)); [done|]. destruct (two32 <=? _); [done|].
    destruct (negb (e_sig_ok E _)); [done|]. destruct (e_sig_valid E _ _ _ _) eqn:Hsv; [|done]. cbn [negb] in Hok.
    exists ts, v. rewrite getN_lookup in Hg.
    destruct agg.
    - apply rbind_Ok in Hok as (g & _ & Hok). injection Hok as <-. split_and!; done.
    - injection Hok as <-. split_and!; done.
  Qed.
End Accept.
