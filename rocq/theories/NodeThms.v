(** Proofs of the node properties. *)
From Verif Require Export NodeProofs STFMore.

(** ** Vote validation (C33) *)
Section Walk.
  Context (hh : Header -> H256) (t : Tables).
  Context (Hacy : acyclic_hash hh) (Hhash : hashed hh t).

  Lemma walk_total anc fuel vis cur rank :
    (forall h, rank (h_parent h) < rank (hh h)) ->
    NoDup vis -> (forall x, x ∈ vis -> is_Some (t_headers t !! x) /\ rank cur < rank x) ->
    (size (t_headers t) <= fuel + length vis)%nat ->
    exists b, ancestor_walk fuel t anc cur = Some b.
  Proof.
    intros Hr. revert vis cur. induction fuel as [|f IH]; intros vis cur Hnd Hvis Hsz; cbn [ancestor_walk];
      unfold get_header; destruct (t_headers t !! cur) as [h|] eqn:Hh; eauto;
      destruct (_ =? _); eauto; destruct (_ <? _); eauto.
    - exfalso. assert (NoDup (cur :: vis)) as Hnd'.
      { apply NoDup_cons. split; [|done]. intros Hin. destruct (Hvis _ Hin). lia. }
      pose proof (nodup_keys_length (t_headers t) (cur :: vis) Hnd') as Hle. cbn in Hle.
      assert (S (length vis) <= size (t_headers t))%nat; [|lia]. apply Hle.
      intros x [->|Hx]%elem_of_cons; [eauto|]. by apply Hvis.
    - pose proof (Hhash _ _ Hh) as Hc. pose proof (Hr h) as Hlt. rewrite Hc in Hlt.
      apply (IH (cur :: vis)).
      + apply NoDup_cons. split; [|done]. intros Hin. destruct (Hvis _ Hin). lia.
      + intros x [->|Hx]%elem_of_cons; [split; [eauto|done]|]. destruct (Hvis _ Hx). split; [done|lia].
      + cbn. lia.
  Qed.

  Lemma walk_reaches fuel anc cur b :
    ancestor_walk fuel t anc cur = Some b -> (b = true <-> reaches t anc cur).
  Proof.
    revert cur. induction fuel as [|f IH]; intros cur; cbn [ancestor_walk]; unfold get_header;
      (destruct (t_headers t !! cur) as [h|] eqn:Hh;
        [|intros [= <-]; split; [done|]; intros Hr; inversion Hr; subst; congruence]);
      (destruct (N.eqb_spec (h_slot h) (cp_slot anc)) as [He|He];
        [intros H0; assert (b = (cur =? cp_root anc)) as -> by congruence;
         destruct (N.eqb_spec cur (cp_root anc)) as [Heq|Hneq]; split; try done;
           [intros _; rewrite Heq; rewrite Heq in Hh; econstructor; done
           |intros Hr; inversion Hr; subst; [done|]; simplify_eq; lia]|]);
      (destruct (N.ltb_spec (h_slot h) (cp_slot anc)) as [Hl|Hl];
        [intros [= <-]; split; [done|]; intros Hr; exfalso; inversion Hr; subst; simplify_eq; lia|]).
    - done.
    - intros H. rewrite (IH _ H). split; intros Hr.
      + eapply rc_step; [done|lia|done].
      + inversion Hr; subst; simplify_eq; try lia; done.
  Qed.

  Lemma ancestor_check anc desc dh :
    t_headers t !! cp_root desc = Some dh -> h_slot dh = cp_slot desc ->
    exists b, checkpoint_is_ancestor t anc desc dh = Some b /\ (b = true <-> reaches t anc (cp_root desc)).
  Proof.
    intros Hh Hs. unfold checkpoint_is_ancestor.
    destruct (N.leb_spec (cp_slot desc) (cp_slot anc)) as [Hle|Hlt].
    - eexists. split; [done|]. rewrite andb_true_iff, !N.eqb_eq. split.
      + intros [H1 H2]. rewrite <- H2 in *. econstructor; [done|congruence].
      + intros Hr. inversion Hr; subst; simplify_eq; [|lia]. split; congruence.
    - destruct Hacy as [rank Hr]. pose proof (Hr dh) as Hlt'. rewrite (Hhash _ _ Hh) in Hlt'.
      destruct (walk_total anc (size (t_headers t)) [] (h_parent dh) rank Hr) as [b Hb];
        [constructor|intros x Hx; by apply elem_of_nil in Hx|cbn; lia|].
      exists b. split; [done|]. rewrite (walk_reaches _ _ _ _ Hb). split; intros H.
      + eapply rc_step; [exact Hh|lia|done].
      + inversion H as [h Hx Hs' Heq|r h Hx Hlt2 Hr2]; [|by simplify_eq].
        rewrite Heq in Hx. simplify_eq. lia.
  Qed.
End Walk.

Lemma C33_validation_iff_pf hh d a :
  acyclic_hash hh -> hashed hh (db_tab d) -> db_time d + 1 < two64 - 1 ->
  validate_attestation_data d a <> Panic /\
  (validate_attestation_data d a = Ok tt <-> vote_ok d a).
Proof.
  intros Hacy Hhash Htime. unfold validate_attestation_data, get_header.
  destruct (t_headers (db_tab d) !! cp_root (ad_source a)) as [sh|] eqn:Hs.
  2:{ split; [done|]. split; [done|]. intros [(h & ? & _) _ _ _ _ _ _ _]. congruence. }
  destruct (t_headers (db_tab d) !! cp_root (ad_target a)) as [th|] eqn:Ht.
  2:{ split; [done|]. split; [done|]. intros [_ (h & ? & _) _ _ _ _ _ _]. congruence. }
  destruct (t_headers (db_tab d) !! cp_root (ad_head a)) as [dh|] eqn:Hd.
  2:{ split; [done|]. split; [done|]. intros [_ _ (h & ? & _) _ _ _ _ _]. congruence. }
  assert (forall c r h, t_headers (db_tab d) !! r = Some h -> reaches (db_tab d) c r -> cp_slot c <= h_slot h) as Hge.
  { intros c r h Hh Hr. inversion Hr; subst; simplify_eq; lia. }
  destruct (N.ltb_spec (cp_slot (ad_target a)) (cp_slot (ad_source a))) as [H1|H1].
  { split; [done|]. split; [done|]. intros [_ (h & ? & ?) _ Hr _ _ _ _]. simplify_eq.
    pose proof (Hge _ _ _ Ht Hr). lia. }
  destruct (N.ltb_spec (cp_slot (ad_head a)) (cp_slot (ad_target a))) as [H2|H2].
  { split; [done|]. split; [done|]. intros [_ _ (h & ? & ?) _ Hr _ _ _]. simplify_eq.
    pose proof (Hge _ _ _ Hd Hr). lia. }
  destruct (N.eqb_spec (h_slot sh) (cp_slot (ad_source a))) as [E1|E1]; cbn [negb].
  2:{ split; [done|]. split; [done|]. intros [(h & ? & ?) _ _ _ _ _ _ _]. congruence. }
  destruct (N.eqb_spec (h_slot th) (cp_slot (ad_target a))) as [E2|E2]; cbn [negb].
  2:{ split; [done|]. split; [done|]. intros [_ (h & ? & ?) _ _ _ _ _ _]. congruence. }
  destruct (N.eqb_spec (h_slot dh) (cp_slot (ad_head a))) as [E3|E3]; cbn [negb].
  2:{ split; [done|]. split; [done|]. intros [_ _ (h & ? & ?) _ _ _ _ _]. congruence. }
  destruct (ancestor_check hh _ Hacy Hhash (ad_source a) _ _ Ht E2) as (b1 & -> & Hb1).
  destruct b1.
  2:{ split; [done|]. split; [done|]. intros [_ _ _ Hr _ _ _ _]. by apply Hb1 in Hr. }
  destruct (ancestor_check hh _ Hacy Hhash (ad_target a) _ _ Hd E3) as (b2 & -> & Hb2).
  destruct b2.
  2:{ split; [done|]. split; [done|]. intros [_ _ _ _ Hr _ _ _]. by apply Hb2 in Hr. }
  destruct (ancestor_check hh _ Hacy Hhash (db_fin d) _ _ Hd E3) as (b3 & -> & Hb3).
  destruct b3.
  2:{ split; [done|]. split; [done|]. intros [_ _ _ _ _ Hr _ _]. by apply Hb3 in Hr. }
  destruct (N.ltb_spec (ad_slot a) (cp_slot (ad_head a))) as [H4|H4].
  { split; [done|]. split; [done|]. intros [_ _ _ _ _ _ ? _]. lia. }
  unfold saturating_mul, GOSSIP_DISPARITY_INTERVALS, INTERVALS_PER_SLOT.
  destruct (N.ltb_spec (db_time d + 1) (N.min (ad_slot a * 5) (two64 - 1))) as [H5|H5].
  { split; [done|]. split; [done|]. intros [_ _ _ _ _ _ _ ?]. lia. }
  split; [done|]. split; [|done]. intros _. split; try done; try (eexists; done).
  - by apply Hb1.
  - by apply Hb2.
  - by apply Hb3.
  - lia.
Qed.

Lemma ancestor_stored t a r : ancestor t a r -> exists h, t_headers t !! r = Some h.
Proof. destruct 1; eauto. Qed.

(** In a store whose parent links decrease in slot, [reaches] is plain ancestry. *)
Lemma C33_reaches_ancestry_pf t c r :
  headers_decrease t ->
  (reaches t c r <-> stored_at t c /\ ancestor t (cp_root c) r).
Proof.
  intros Hdec. split.
  - induction 1 as [h Hh Hs|r h Hh Hs Hr [IH1 IH2]].
    + split; [by eexists|]. by econstructor.
    + split; [done|]. by econstructor.
  - intros [(h & Hh & Hs) Ha]. induction Ha as [h' Hh'|r hr Hr Ha IH].
    + by apply (rc_here _ _ h).
    + destruct (decide (r = cp_root c)) as [->|Hne]; [by apply (rc_here _ _ h)|].
      assert (forall x hx, ancestor t (cp_root c) x -> t_headers t !! x = Some hx -> h_slot h <= h_slot hx) as Hmono.
      { clear -Hdec Hh. intros x hx Hx. revert hx. induction Hx as [h' Hh'|x h' Hh' Hx IH]; intros hx Hhx; simplify_eq; [lia|].
        assert (exists hp, t_headers t !! h_parent h' = Some hp) as [hp Hp] by (by eapply ancestor_stored).
        pose proof (Hdec _ _ _ Hh' Hp) as Hlt. specialize (IH _ Hp). lia. }
      eapply rc_step; [exact Hr| |done].
      assert (exists hp, t_headers t !! h_parent hr = Some hp) as [hp Hp] by (by eapply ancestor_stored).
      pose proof (Hdec _ _ _ Hr Hp). pose proof (Hmono _ _ Ha Hp). lia.
Qed.

(** ** Reorg depth (C36) *)
Lemma nth_above t x k r h : nth_ancestor t k x = Some r -> t_headers t !! r = Some h ->
  nth_ancestor t (S k) x = Some (h_parent h).
Proof.
  revert x. induction k as [|k IH]; intros x H Hh; cbn in *.
  - injection H as ->. by rewrite Hh.
  - destruct (t_headers t !! x); [|done]. by apply IH.
Qed.
Lemma reorg_walk_spec t s lo hi fuel cur depth :
  N.of_nat fuel + depth = 128 -> (0 < fuel)%nat ->
  above_for t s hi (N.to_nat depth) -> nth_ancestor t (N.to_nat depth) hi = Some cur ->
  match reorg_walk fuel t cur s lo depth with
  | Some d =>
      (d = 128 /\ above_for t s hi 128) \/
      (d < 128 /\ above_for t s hi (N.to_nat d) /\
       exists r h, nth_ancestor t (N.to_nat d) hi = Some r /\ t_headers t !! r = Some h /\ h_slot h <= s /\ r <> lo)
  | None =>
      exists k r, (k < 128)%nat /\ above_for t s hi k /\ nth_ancestor t k hi = Some r /\
        (t_headers t !! r = None \/ (r = lo /\ exists h, t_headers t !! r = Some h /\ h_slot h <= s))
  end.
Proof.
  revert cur depth. induction fuel as [|f IH]; intros cur depth Hf Hpos Hab Hnth; [lia|]. cbn [reorg_walk].
  unfold get_header. destruct (t_headers t !! cur) as [h|] eqn:Hh.
  2:{ exists (N.to_nat depth), cur. split_and!; try done; [lia|by left]. }
  destruct (N.leb_spec (h_slot h) s) as [Hle|Hgt].
  { destruct (N.eqb_spec cur lo) as [->|Hne].
    - exists (N.to_nat depth), lo. split_and!; try done; [lia|]. right. eauto.
    - right. split; [lia|]. split; [done|]. exists cur, h. done. }
  assert (above_for t s hi (N.to_nat (depth + 1))) as Hab'.
  { intros j Hj. destruct (decide (j = N.to_nat depth)) as [->|Hne]; [exists cur, h; done|]. apply Hab. lia. }
  change MAX_REORG_DEPTH with 128.
  destruct (N.leb_spec 128 (depth + 1)) as [Hc|Hc].
  - left. split; [lia|]. intros j Hj. apply Hab'. lia.
  - apply IH; try done; [lia|lia|].
    replace (N.to_nat (depth + 1)) with (S (N.to_nat depth)) by lia. by eapply nth_above.
Qed.

Lemma above_unique t s hi k k' r h r' h' :
  above_for t s hi k -> nth_ancestor t k hi = Some r -> t_headers t !! r = Some h -> h_slot h <= s ->
  above_for t s hi k' -> nth_ancestor t k' hi = Some r' ->
  (t_headers t !! r' = None \/ (t_headers t !! r' = Some h' /\ h_slot h' <= s)) -> k = k'.
Proof.
  intros H1 H2 H3 H4 H5 H6 H7. destruct (lt_eq_lt_dec k k') as [[Hlt|?]|Hgt]; [|done|]; exfalso.
  - destruct (H5 k Hlt) as (x & hx & E1 & E2 & E3). simplify_eq. lia.
  - destruct (H1 k' Hgt) as (x & hx & E1 & E2 & E3). simplify_eq. destruct H7 as [|[? ?]]; simplify_eq; lia.
Qed.

Lemma C36_reorg_depth_pf t old new hi lo d :
  old <> new -> higher_lower t old new hi lo ->
  (reorg_depth t old new = Some d <->
   (exists k, d = N.of_nat k /\ (k < 128)%nat /\ leaves_out t hi lo k) \/ (d = 128 /\ too_long t hi lo)).
Proof.
  intros Hne (ho & hn & Ho & Hn & Hcase). unfold reorg_depth, get_header.
  destruct (N.eqb_spec new old) as [|_]; [congruence|]. rewrite Ho, Hn.
  assert (exists hl, t_headers t !! lo = Some hl /\
    (if h_slot ho <=? h_slot hn then reorg_walk 128 t new (h_slot ho) old 0 else reorg_walk 128 t old (h_slot hn) new 0)
     = reorg_walk 128 t hi (h_slot hl) lo 0) as (hl & Hl & ->).
  { destruct Hcase as [(Hle & -> & ->)|(Hlt & -> & ->)].
    - exists ho. split; [done|]. destruct (N.leb_spec (h_slot ho) (h_slot hn)); [done|lia].
    - exists hn. split; [done|]. destruct (N.leb_spec (h_slot ho) (h_slot hn)); [lia|done]. }
  pose proof (reorg_walk_spec t (h_slot hl) lo hi 128 hi 0 eq_refl ltac:(lia)) as H.
  destruct (reorg_walk 128 t hi (h_slot hl) lo 0) as [d'|] eqn:Hw.
  - destruct H as [[-> H]|(Hd & H & r & h & H1 & H2 & H3 & H4)]; [intros j Hj; cbn in Hj; lia|done| |].
    + split.
      * intros [= <-]. right. split; [done|]. by exists hl.
      * intros [(k & -> & Hk & hl' & r & h & H1 & H2 & H3 & H4 & H5 & H6)|[-> _]]; [|done].
        exfalso. simplify_eq. destruct (H k Hk) as (x & hx & E1 & E2 & E3). simplify_eq. lia.
    + split.
      * intros [= <-]. left. exists (N.to_nat d'). split; [lia|]. split; [lia|]. exists hl, r, h. done.
      * intros [(k & -> & Hk & hl' & r' & h' & G1 & G2 & G3 & G4 & G5 & G6)|[-> (hl' & G1 & G2)]]; simplify_eq.
        -- f_equal. assert (N.to_nat d' = k); [|lia].
           eapply (above_unique t _ hi); eauto.
        -- exfalso. destruct (G2 (N.to_nat d') ltac:(lia)) as (x & hx & E1 & E2 & E3). simplify_eq. lia.
  - destruct H as (k & r & Hk & H1 & H2 & H3); [intros j Hj; cbn in Hj; lia|done|]. split; [done|].
    intros [(k' & -> & Hk' & hl' & r' & h' & G1 & G2 & G3 & G4 & G5 & G6)|[-> (hl' & G1 & G2)]]; simplify_eq; exfalso.
    + assert (k' = k) as ->.
      { destruct H3 as [Hx|(_ & h & Hx & Hs)].
        - eapply (above_unique t _ hi k' k r' h' r h' G2 G3 G4 G5 H1 H2). by left.
        - eapply (above_unique t _ hi k' k r' h' r h G2 G3 G4 G5 H1 H2). by right. }
      simplify_eq. destruct H3 as [?|(-> & _)]; congruence.
    + destruct (G2 k Hk) as (x & hx & E1 & E2 & E3). simplify_eq.
      destruct H3 as [?|(-> & h & ? & ?)]; simplify_eq. lia.
Qed.
