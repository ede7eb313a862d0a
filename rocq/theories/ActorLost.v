(** Actor proofs: which stored blocks cannot be read back. *)
From Verif Require Export ActorSafe.

Section Lost.
  Context (E : Env) (gt : N) (vals : list Validator).
  Context (Hgood : good_hash (e_header E)) (Hvals : lenN vals <= VALIDATOR_REGISTRY_LIMIT).
  Notation hb := (e_body E).
  Notation root_ := (block_root (e_header E) (e_body E)).
  Notation reach := (reachable E gt vals).
  Notation node_inv := (node_inv E gt vals).

  (** Slots of stored states, and the blocks that have no proof any more. *)
  Definition kept (A : H256) (As : N) (w : gmap H256 State) (n : Node) : Prop :=
    (forall r s, w !! r = Some s -> s_slot s <= N.max As (db_time (nd_db n) / 5 + 1)) /\
    (forall r h, t_headers (tab n) !! r = Some h -> get_signed_block hb (tab n) r = None ->
       r = A \/ h_slot h + 21600 <= db_time (nd_db n) / 5).

  Lemma kept_rows A As w n n' : same_rows (tab n) (tab n') -> db_time (nd_db n) <= db_time (nd_db n') ->
    kept A As w n -> kept A As w n'.
  Proof.
    intros Hrows Ht [K1 K2]. assert (db_time (nd_db n) / 5 <= db_time (nd_db n') / 5) by (by apply N.div_le_mono).
    split.
    - intros r s Hs. specialize (K1 _ _ Hs). lia.
    - intros r h Hh Hg. rewrite (rows_signed _ _ _ _ Hrows) in Hg. destruct Hrows as (Hr & _). rewrite Hr in Hh.
      destruct (K2 _ _ Hh Hg); [by left|right; lia].
  Qed.
  Lemma kept_write A As w n n' sb : let t := write_signed_block hb (tab n) (root_ (sb_block sb)) sb in
    same_rows t (tab n') -> db_time (nd_db n) <= db_time (nd_db n') ->
    (forall r s, w !! r = Some s -> s_slot s <= N.max As (db_time (nd_db n') / 5 + 1)) ->
    kept A As w n -> kept A As w n'.
  Proof.
    intros t Hrows Ht Hw [_ K2]. assert (db_time (nd_db n) / 5 <= db_time (nd_db n') / 5) by (by apply N.div_le_mono).
    split; [done|]. intros r h Hh Hg. rewrite (rows_signed _ _ _ _ Hrows) in Hg. destruct Hrows as (Hr & _).
    rewrite Hr in Hh. unfold t in *. destruct (decide (r = root_ (sb_block sb))) as [->|Hne].
    { by apply written_read in Hg. }
    rewrite written_other in Hg by done. rewrite written_headers, lookup_insert_ne in Hh by done.
    destruct (K2 _ _ Hh Hg); [by left|right; lia].
  Qed.

  Lemma import_slot n sb n' : has_state (tab n) (root_ (sb_block sb)) = false -> on_block E n sb = Ok n' ->
    b_slot (sb_block sb) <= db_time (nd_db n) / 5 + 1.
  Proof.
    intros Hns H. unfold on_block in H. apply rbind_Ok in H as (o & Hc & _). unfold check_block in Hc.
    unfold tab in Hns. rewrite Hns in Hc. apply rbind_Ok in Hc as (p & _ & Hc). destruct p; [|done].
    destruct (HISTORICAL_ROOTS_LIMIT <? _) in Hc; [done|].
    destruct (N.ltb_spec (current_slot (nd_db n) + 1) (b_slot (sb_block sb))); [done|].
    unfold current_slot in *. change INTERVALS_PER_SLOT with 5 in *. lia.
  Qed.

  Lemma kept_step A As w n e n' : node_inv A As w n -> kept A As w n -> node_step E n e = Ok n' ->
    exists w', step_ok E gt vals A As w w' n n' /\ kept A As w' n'.
  Proof.
    intros Hn Hk Hs. destruct (node_step_detail E gt vals Hgood Hvals _ _ _ _ _ _ Hn Hs) as (w' & Hst & _ & Hd).
    exists w'. split; [done|]. pose proof (so_time _ _ _ _ _ _ _ _ _ Hst) as Ht.
    destruct e as [sb|sb|ts hp|sa agg|sg|l keys|slot| |]; cbn in Hd;
      try (destruct Hd as [-> Hrows]; by eapply kept_rows).
    - destruct Hd as [[-> ->]|(p & post & Hnone & Hpar & Hst' & Hon & -> & Hrows)]; [done|].
      assert (kept A As (<[root_ (sb_block sb):=stored_state post (sb_block sb)]> w) n) as Hk'.
      { destruct Hk as [K1 K2]. split; [|done]. intros r s Hr.
        destruct (decide (r = root_ (sb_block sb))) as [->|Hne].
        - rewrite lookup_insert in Hr. injection Hr as <-.
          assert (has_state (tab n) (root_ (sb_block sb)) = false) as Hns.
          { unfold tab. rewrite (has_state_spec _ _ _ _ _ _ (di_st _ _ _ _ _ _ _ (proj1 Hn))). rewrite Hnone.
            apply bool_decide_eq_false. by intros []. }
          pose proof (import_slot _ _ _ Hns Hon) as Hsl.
          assert (s_slot (stored_state post (sb_block sb)) = b_slot (sb_block sb)) as ->; [|lia].
          destruct (w_header _ _ _ _ _ _ _ (root_ (sb_block sb)) (stored_state post (sb_block sb))
            (proj1 (so_inv _ _ _ _ _ _ _ _ _ Hst))) as (Hh & Hsl' & _); [apply lookup_insert|].
          destruct Hrows as (Hr & _). change (db_tab (nd_db n')) with (tab n') in Hh. rewrite Hr, written_headers, lookup_insert in Hh.
          apply (inj Some) in Hh. rewrite Hsl', <- Hh. done.
        - rewrite lookup_insert_ne in Hr by done. by eapply K1. }
      eapply kept_write; [exact Hrows|done| |exact Hk'].
      assert (db_time (nd_db n) / 5 <= db_time (nd_db n') / 5) by (by apply N.div_le_mono).
      intros r s Hr. pose proof (proj1 Hk' _ _ Hr). lia.
    - destruct Hd as (-> & _ & [->|Htab]); [done|]. eapply kept_write; [|done| |exact Hk].
      + by rewrite Htab.
      + assert (db_time (nd_db n) / 5 <= db_time (nd_db n') / 5) by (by apply N.div_le_mono).
        intros r s Hr. pose proof (proj1 Hk _ _ Hr). lia.
    - destruct Hd as (-> & Hh & Hb & _ & Hp). destruct Hk as [K1 K2].
      assert (db_time (nd_db n) / 5 <= db_time (nd_db n') / 5) as Hdt by (by apply N.div_le_mono).
      split; [intros r s Hr; pose proof (K1 _ _ Hr); lia|]. intros r h Hr Hg. rewrite Hh in Hr.
      destruct (get_signed_block hb (tab n) r) as [sb|] eqn:Hold.
      2:{ destruct (K2 _ _ Hr Hold); [by left|right; lia]. }
      unfold get_signed_block in Hold, Hg. rewrite Hh, Hr in Hg. rewrite Hr in Hold. rewrite Hb in Hg.
      destruct (if h_body_root h =? EMPTY_BODY_ROOT hb then Some [] else t_bodies (tab n) !! r); [|done].
      destruct (t_proofs (tab n') !! (h_slot h, r)) eqn:Hpr; [done|].
      destruct (N.eqb_spec (h_slot h) 0) as [|Hne]; [done|].
      destruct (t_proofs (tab n) !! (h_slot h, r)) as [p|] eqn:Hpo; [|done].
      destruct (Hp _ _ Hpo) as [?|(Hfin & hh & Hhead & Hlt)]; [congruence|]. cbn [fst] in *.
      destruct (di_head _ _ _ _ _ _ _ (proj1 Hn)) as [sh Hsh].
      destruct (w_header _ _ _ _ _ _ _ _ _ (proj1 Hn) Hsh) as (Hhh & Hsl & _).
      pose proof (K1 _ _ Hsh) as Hmax. unfold tab in Hhead. rewrite Hhh in Hhead. injection Hhead as <-.
      change BLOCK_PROOF_PRUNING_RANGE with 21600 in Hlt.
      destruct (di_headers _ _ _ _ _ _ _ (proj1 Hn) _ _ Hr) as [->|Has].
      + by left.
      + right. lia.
  Qed.

  Lemma kept_run A As w n es n' : node_inv A As w n -> kept A As w n -> node_run E n es n' ->
    exists w', step_ok E gt vals A As w w' n n' /\ kept A As w' n'.
  Proof.
    intros Hn Hk Hr. induction Hr as [|es n1 e n2 Hr IH Hs]; [exists w; split; [by apply step_refl|done]|].
    destruct IH as (w1 & H1 & K1).
    destruct (kept_step _ _ _ _ _ _ (so_inv _ _ _ _ _ _ _ _ _ H1) K1 Hs) as (w2 & H2 & K2).
    exists w2. split; [by eapply step_trans|done].
  Qed.

  Lemma lost_cause n r h : acyclic_hash (e_header E) -> reach n ->
    t_headers (tab n) !! r = Some h -> has_state (tab n) (h_parent h) = true ->
    get_signed_block hb (tab n) r = None -> h_slot h + 21600 <= current_slot (nd_db n).
  Proof.
    intros [rank Hrank] (a & n0 & es & Ha & Hst & Hr) Hh Hs Hg.
    destruct (started_facts E gt vals Hgood Hvals _ _ Ha Hst) as (Hn0 & _ & Hone & Ht0).
    set (A := db_head (nd_db n0)) in *. set (w0 := {[A := _]}) in *. pose proof (proj1 Hn0) as Hi0.
    assert (kept A (s_slot a) w0 n0) as Hk0.
    { split.
      - intros r' s Hr'. unfold w0 in Hr'. apply lookup_singleton_Some in Hr' as [<- <-].
        destruct (di_anchor _ _ _ _ _ _ _ Hi0) as (sA & HA & HAs). unfold w0 in HA. rewrite lookup_singleton in HA.
        injection HA as <-. lia.
      - intros r' h' Hh' _. left. by apply (Hone _ _ Hh'). }
    destruct (kept_run _ _ _ _ _ _ Hn0 Hk0 Hr) as (w & Hok & [_ K2]).
    pose proof (so_inv _ _ _ _ _ _ _ _ _ Hok) as [Hi _].
    destruct (K2 _ _ Hh Hg) as [->|Hle]; [|done]. exfalso.
    unfold tab in Hs. rewrite (has_state_spec _ _ _ _ _ _ (di_st _ _ _ _ _ _ _ Hi)) in Hs.
    apply bool_decide_eq_true in Hs as [s Hs]. destruct (di_path _ _ _ _ _ _ _ Hi _ _ Hs) as (l & Hl & _).
    pose proof (reach_ranked E gt vals Hgood Hvals n rank Hrank) as Hrk.
    specialize (Hrk ltac:(by exists a, n0, es)). pose proof (Hrk _ _ Hh) as Hlt.
    assert (rank A <= rank (h_parent h)); [|lia]. revert Hl. generalize (h_parent h) as q. clear -Hrk. intros q Hl.
    induction Hl as [|r h' l _ Hh _ IH]; [lia|]. pose proof (Hrk _ _ Hh). lia.
  Qed.
End Lost.
