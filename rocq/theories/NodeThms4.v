(** Proofs of the node properties: attestation duty (C34). *)
From Verif Require Export NodeThms3.

Lemma path_suffix t A r l a b :
  path t A r l -> descending t l -> a ∈ l -> b ∈ l -> slot_of t a <= slot_of t b ->
  exists l2, path t A b l2 /\ descending t l2 /\ a ∈ l2.
Proof.
  induction 1 as [h Hh|r h l Hne Hh Hp IH]; intros Hd Ha Hb Hs.
  - apply elem_of_list_singleton in Ha as ->, Hb as ->. exists [A]. split_and!; [by econstructor|done|left].
  - apply elem_of_cons in Hb as [->|Hb].
    { exists (r :: l). split_and!; try done. by econstructor. }
    apply elem_of_cons in Ha as [->|Ha].
    + exfalso. assert (slot_of t b < slot_of t r); [|lia]. eapply descending_head; [by econstructor|done|done].
    + apply IH; try done. by eapply descending_tail.
Qed.

Lemma path_reaches t A r l c :
  path t A r l -> descending t l -> cp_root c ∈ l -> slot_of t (cp_root c) = cp_slot c -> reaches t c r.
Proof.
  induction 1 as [h Hh|r h l Hne Hh Hp IH]; intros Hd Hc Hs.
  - apply elem_of_list_singleton in Hc. rewrite <- Hc. apply (rc_here _ _ h); [by rewrite Hc|].
    rewrite <- Hs, Hc. by rewrite (slot_of_header _ _ _ Hh).
  - destruct (decide (r = cp_root c)) as [He|Hn].
    + rewrite He. apply (rc_here _ _ h); [by rewrite <- He|]. rewrite <- Hs, <- He. by rewrite (slot_of_header _ _ _ Hh).
    + apply elem_of_cons in Hc as [Hc|Hc]; [done|]. apply (rc_step _ _ _ h); [done| |].
      * assert (slot_of t (cp_root c) < slot_of t r) as Hlt.
        { apply (descending_head t A r l); [by eapply path_step|done|done]. }
        rewrite (slot_of_header _ _ _ Hh) in Hlt. by rewrite <- Hs.
      * apply IH; try done. by eapply descending_tail.
Qed.

Lemma path_ancestor t A r l a : path t A r l -> a ∈ l -> ancestor t a r.
Proof.
  induction 1 as [h Hh|r h l Hne Hh Hp IH]; intros Ha.
  - apply elem_of_list_singleton in Ha as ->. by econstructor.
  - apply elem_of_cons in Ha as [->|Ha]; [by econstructor|]. eapply an_step; [done|]. by apply IH.
Qed.

Section Duty.
  Context (E : Env) (gt : N) (vals : list Validator).
  Context (Hgood : good_hash (e_header E)) (Hvals : lenN vals <= VALIDATOR_REGISTRY_LIMIT).
  Notation hh := (e_header E).
  Notation db_inv := (db_inv E gt vals).
  Notation node_inv := (node_inv E gt vals).

  Lemma anchor_slot A As w d h : db_inv A As w d -> t_headers (db_tab d) !! A = Some h -> h_slot h = As.
  Proof.
    intros Hi Hh. destruct (di_anchor _ _ _ _ _ _ _ Hi) as (s & Hs & Has).
    destruct (w_header _ _ _ _ _ _ _ _ _ Hi Hs) as (H1 & H2 & _). congruence.
  Qed.

  Lemma lookback_spec A As w d ss k x hx l :
    db_inv A As w d -> As <= ss -> path (db_tab d) A x l -> t_headers (db_tab d) !! x = Some hx ->
    exists i y hy l2, lookback k (db_tab d) ss x hx = Ok (y, hy) /\ (i <= k)%nat /\
      nth_ancestor (db_tab d) i x = Some y /\ t_headers (db_tab d) !! y = Some hy /\
      above_for (db_tab d) ss x i /\ (i = k \/ h_slot hy <= ss) /\
      path (db_tab d) A y l2 /\ l2 `suffix_of` l.
  Proof.
    intros Hi Hss. revert x hx l. induction k as [|k IH]; intros x hx l Hp Hx; cbn [lookback].
    - exists 0%nat, x, hx, l. split_and!; try done; [intros j Hj; lia|by left].
    - destruct (N.ltb_spec ss (h_slot hx)) as [Hlt|Hle].
      + inversion Hp as [h0 Hh0 E1 E2|r' h' l' Hne Hh' Hp' E1]; subst.
        { pose proof (anchor_slot _ _ _ _ _ Hi Hx). lia. }
        assert (h' = hx) as -> by congruence.
        destruct (path_head _ _ _ _ Hp') as [l'' ->].
        destruct (path_stored _ _ _ _ (h_parent hx) Hp') as [hp Hhp]; [left|].
        unfold get_header. rewrite Hhp. destruct (IH _ _ _ Hp' Hhp) as (i & y & hy & l2 & -> & Hik & Hn & Hy & Hab & Hor & Hp2 & Hsuf).
        exists (S i), y, hy, l2. split_and!; try done; [lia|cbn; by rewrite Hx| | |].
        * intros j Hj. destruct j as [|j]; [by exists x, hx|]. cbn. rewrite Hx. apply Hab. lia.
        * destruct Hor; [left; lia|by right].
        * by apply suffix_cons_r.
      + exists 0%nat, x, hx, l. split_and!; try done; [lia|intros j Hj; lia|by right].
  Qed.

  Lemma jwalk_spec A As w d f fuel x hx l :
    db_inv A As w d -> As <= f -> path (db_tab d) A x l -> t_headers (db_tab d) !! x = Some hx ->
    (length l <= S fuel)%nat ->
    exists j y hy l2, justifiable_walk fuel (db_tab d) f x hx = Ok (y, hy) /\
      nth_ancestor (db_tab d) j x = Some y /\ t_headers (db_tab d) !! y = Some hy /\
      (h_slot hy <= f \/ slot_is_justifiable_after (h_slot hy) f = true) /\
      (forall i, (i < j)%nat -> exists z sz, nth_ancestor (db_tab d) i x = Some z /\
         has_slot (db_tab d) z sz /\ f < sz /\ ~ slot_is_justifiable_after sz f = true) /\
      path (db_tab d) A y l2 /\ l2 `suffix_of` l.
  Proof.
    intros Hi Hf. revert x hx l.
    assert (forall fuel x hx l, path (db_tab d) A x l -> t_headers (db_tab d) !! x = Some hx ->
       (f <? h_slot hx) && negb (slot_is_justifiable_after (h_slot hx) f) = false ->
       exists j y hy l2, justifiable_walk fuel (db_tab d) f x hx = Ok (y, hy) /\
      nth_ancestor (db_tab d) j x = Some y /\ t_headers (db_tab d) !! y = Some hy /\
      (h_slot hy <= f \/ slot_is_justifiable_after (h_slot hy) f = true) /\
      (forall i, (i < j)%nat -> exists z sz, nth_ancestor (db_tab d) i x = Some z /\
         has_slot (db_tab d) z sz /\ f < sz /\ ~ slot_is_justifiable_after sz f = true) /\
      path (db_tab d) A y l2 /\ l2 `suffix_of` l) as Hstop.
    { intros fu x hx l Hp Hx Hc. exists 0%nat, x, hx, l. split_and!; try done.
      - destruct fu; cbn [justifiable_walk]; by rewrite Hc.
      - apply andb_false_iff in Hc as [Hc|Hc]; [left; by apply N.ltb_ge in Hc|right]. by apply negb_false_iff in Hc.
      - intros i Hi0. lia. }
    induction fuel as [|fuel IH]; intros x hx l Hp Hx Hlen;
      (destruct ((f <? h_slot hx) && negb (slot_is_justifiable_after (h_slot hx) f)) eqn:Hc; [|by apply Hstop]);
      apply andb_true_iff in Hc as [Hc1 Hc2]; pose proof Hc1 as Hlt; apply N.ltb_lt in Hlt;
      inversion Hp as [h0 Hh0 E1 E2|r' h' l' Hne Hh' Hp' E1]; subst;
      try (pose proof (anchor_slot _ _ _ _ _ Hi Hx); lia).
    - destruct (path_head _ _ _ _ Hp') as [l'' ->]. cbn in Hlen. lia.
    - assert (h' = hx) as -> by congruence. cbn [justifiable_walk]. rewrite Hc1, Hc2. cbn [andb].
      destruct (path_stored _ _ _ _ (h_parent hx) Hp') as [hp Hhp]; [destruct (path_head _ _ _ _ Hp') as [l'' ->]; left|].
      unfold get_header. rewrite Hhp. cbn in Hlen.
      destruct (IH _ _ _ Hp' Hhp ltac:(lia)) as (j & y & hy & l2 & -> & Hn & Hy & Hor & Hab & Hp2 & Hsuf).
      exists (S j), y, hy, l2. split_and!; try done; [cbn; by rewrite Hx| |by apply suffix_cons_r].
      intros i Hij. destruct i as [|i].
      + exists x, (h_slot hx). split_and!; try done; [by exists hx|]. apply negb_true_iff in Hc2. by rewrite Hc2.
      + cbn. rewrite Hx. apply Hab. lia.
  Qed.

  Lemma justifiable_self f : slot_is_justifiable_after f f = true.
  Proof. unfold slot_is_justifiable_after. rewrite N.ltb_irrefl, N.sub_diag. done. Qed.

  (** Everything about the target. *)
  Lemma inv_target A As w d :
    db_inv A As w d -> head_ok d ->
    exists x y sy cp l, lookback_block d x /\ justifiable_below d x y sy /\
      get_attestation_target d = Ok cp /\
      cp = (if sy <? cp_slot (db_just d) then db_just d else mkCp y sy) /\
      path (db_tab d) A (db_head d) l /\ descending (db_tab d) l /\ cp_root cp ∈ l /\
      has_slot (db_tab d) (cp_root cp) (cp_slot cp) /\
      cp_slot (db_just d) <= cp_slot cp /\
      (cp = db_just d \/ slot_is_justifiable_after (cp_slot cp) (cp_slot (db_fin d)) = true).
  Proof.
    intros Hi Hok. destruct (descends_path _ _ _ Hgood Hvals _ _ _ _ _ _ Hi Hok) as (l & Hp & Hd & Hj).
    destruct (di_head _ _ _ _ _ _ _ Hi) as [sh Hsh]. destruct (di_safe _ _ _ _ _ _ _ Hi) as [ss Hss].
    destruct (w_header _ _ _ _ _ _ _ _ _ Hi Hsh) as (Hhh & _). destruct (w_header _ _ _ _ _ _ _ _ _ Hi Hss) as (Hhs & Hse & _).
    destruct (w_slot_ge _ _ _ Hvals _ _ _ _ _ _ Hi Hss) as [Hge _].
    destruct (db_inv_fin_ge _ _ _ Hvals _ _ _ _ Hi) as [Hfge _].
    destruct (lookback_spec _ _ _ _ (h_slot (s_header ss)) JUSTIFICATION_LOOKBACK_SLOTS _ _ _ Hi ltac:(lia) Hp Hhh)
      as (i & x & hx & l2 & Hlb & Hi3 & Hnx & Hx & Hab & Hor & Hp2 & Hsuf).
    assert (length l2 <= size (t_headers (db_tab d)))%nat as Hlen.
    { destruct Hsuf as [k ->]. eapply path_length; [exact Hp2|].
      pose proof (descending_nodup _ _ _ _ Hp Hd) as Hnd. rewrite map_app in Hnd. by apply NoDup_app in Hnd as (_ & _ & ?). }
    destruct (jwalk_spec _ _ _ _ (cp_slot (db_fin d)) (size (t_headers (db_tab d))) _ _ _ Hi Hfge Hp2 Hx ltac:(lia))
      as (j & y & hy & l3 & Hjw & Hny & Hy & Hor' & Hab' & Hp3 & Hsuf').
    set (cp := if h_slot hy <? cp_slot (db_just d) then db_just d else mkCp y (h_slot hy)).
    assert (y ∈ l) as Hyl.
    { destruct (path_head _ _ _ _ Hp3) as [l4 ->]. destruct Hsuf as [k1 ->], Hsuf' as [k2 ->]. set_solver. }
    exists x, y, (h_slot hy), cp, l. split_and!; try done.
    - exists i, (h_slot (s_header ss)), (h_slot hx). split_and!; try done; [by exists (s_header ss)|by exists hx].
    - exists j. split_and!; try done. by exists hy.
    - unfold get_attestation_target, get_attestation_target_with_checkpoints, get_header.
      rewrite Hhh, Hhs, Hlb. cbn [rbind fst snd]. rewrite Hjw. cbn [rbind fst snd]. unfold cp. by destruct (_ <? _).
    - unfold cp. destruct (_ <? _); done.
    - unfold cp. destruct (_ <? _); [|by exists hy].
      destruct (di_just _ _ _ _ _ _ _ Hi) as (sj & Hwj & Hsj). destruct (w_header _ _ _ _ _ _ _ _ _ Hi Hwj) as (H1 & H2 & _).
      exists (s_header sj). split; [done|congruence].
    - unfold cp. destruct (N.ltb_spec (h_slot hy) (cp_slot (db_just d))); cbn; lia.
    - unfold cp. destruct (N.ltb_spec (h_slot hy) (cp_slot (db_just d))) as [|Hge']; [by left|right]. cbn [cp_slot].
      destruct Hor' as [Hle|]; [|done]. pose proof (di_fin_just _ _ _ _ _ _ _ Hi).
      replace (h_slot hy) with (cp_slot (db_fin d)) by lia. apply justifiable_self.
  Qed.

  Lemma C34_target_pf n :
    reachable E gt vals n -> let d := nd_db n in
    exists x y sy cp, lookback_block d x /\ justifiable_below d x y sy /\
      get_attestation_target d = Ok cp /\
      cp = (if sy <? cp_slot (db_just d) then db_just d else mkCp y sy) /\
      ancestor (db_tab d) (cp_root cp) (db_head d) /\
      has_slot (db_tab d) (cp_root cp) (cp_slot cp) /\
      cp_slot (db_just d) <= cp_slot cp /\
      (cp = db_just d \/ slot_is_justifiable_after (cp_slot cp) (cp_slot (db_fin d)) = true).
  Proof.
    intros Hr d. destruct (reachable_inv E gt vals Hgood Hvals _ Hr) as (A & As & w & [Hi _] & Hok).
    destruct (inv_target _ _ _ _ Hi Hok) as (x & y & sy & cp & l & H1 & H2 & H3 & H4 & H5 & H6 & H7 & H8 & H9 & H10).
    exists x, y, sy, cp. split_and!; try done. by eapply path_ancestor.
  Qed.

  Lemma C34_produced_pf n slot :
    reachable E gt vals n -> let d := nd_db n in
    exists a hs, produce_attestation_data d slot = Ok a /\ ad_slot a = slot /\
      has_slot (db_tab d) (db_head d) hs /\ ad_head a = mkCp (db_head d) hs /\
      get_attestation_target d = Ok (ad_target a) /\
      exists s, read_state (db_tab d) (db_head d) = Ok (Some s) /\
        (cp_root (s_justified s) <> ZERO -> ad_source a = s_justified s) /\
        (cp_root (s_justified s) = ZERO -> ad_source a = mkCp (db_head d) (cp_slot (s_justified s))).
  Proof.
    intros Hr d. destruct (reachable_inv E gt vals Hgood Hvals _ Hr) as (A & As & w & [Hi _] & Hok).
    destruct (inv_target _ _ _ _ Hi Hok) as (x & y & sy & cp & l & H1 & H2 & H3 & _).
    destruct (di_head _ _ _ _ _ _ _ Hi) as [sh Hsh].
    destruct (w_header _ _ _ _ _ _ _ _ _ Hi Hsh) as (Hhh & _).
    unfold produce_attestation_data. fold d in Hi, Hhh, H3, Hsh.
    fold d. rewrite (w_read _ _ _ _ _ _ _ _ _ Hi Hsh). cbn [expect rbind]. unfold get_header. rewrite Hhh, H3. cbn [rbind].
    eexists _, _. split; [reflexivity|]. cbn. split_and!; try done; [by exists (s_header sh)|].
    exists sh. split; [done|]. destruct (N.eqb_spec (cp_root (s_justified sh)) ZERO); done.
  Qed.

  Lemma inv_valid A w d slot a :
    db_inv A 0 w d -> head_ok d -> fin_inv 0 w d ->
    produce_attestation_data d slot = Ok a ->
    slot_of (db_tab d) (db_head d) <= slot -> slot * 5 <= db_time d + 1 -> vote_ok d a.
  Proof.
    intros Hi Hok Hf Hpr Hslot Htime.
    destruct (inv_target _ _ _ _ Hi Hok) as (x & y & sy & cp & l & _ & _ & Ht & _ & Hp & Hd & Hcl & Hcs & Hjc & _).
    destruct (di_head _ _ _ _ _ _ _ Hi) as [s Hs].
    destruct (w_header _ _ _ _ _ _ _ _ _ Hi Hs) as (Hhh & Hsh & Hsl).
    pose proof (w_chain_facts _ _ _ Hgood _ _ _ _ _ _ Hi Hs) as (_ & _ & _ & _ & Hfj & Hjs & Hcase).
    unfold produce_attestation_data in Hpr. rewrite (w_read _ _ _ _ _ _ _ _ _ Hi Hs) in Hpr. cbn [expect rbind] in Hpr.
    unfold get_header in Hpr. rewrite Hhh, Ht in Hpr. cbn [rbind] in Hpr.
    set (src := if cp_root (s_justified s) =? ZERO then mkCp (db_head d) (cp_slot (s_justified s)) else s_justified s) in *.
    apply Ok_inj in Hpr as <-.
    assert (db_head d ∈ l) as Hhl by (destruct (path_head _ _ _ _ Hp) as [l' ->]; left).
    destruct (di_path _ _ _ _ _ _ _ Hi _ _ Hs) as (l' & Hp' & Hd' & Hin & Hroot).
    rewrite (path_det _ _ _ _ _ Hp' Hp) in *. clear Hp' Hd' l'.
    destruct Hcs as (hc & Hhc & Hhcs).
    assert (slot_of (db_tab d) (cp_root cp) = cp_slot cp) as Hcslot by (by rewrite (slot_of_header _ _ _ Hhc)).
    (* source on the chain *)
    assert (cp_root src ∈ l /\ slot_of (db_tab d) (cp_root src) = cp_slot src /\ cp_slot src <= cp_slot cp) as (Hsl1 & Hsl2 & Hsl3).
    { assert (cp_slot src = cp_slot (s_justified s)) as Hss by (unfold src; by destruct (_ =? _)).
      assert (cp_slot src <= cp_slot cp).
      { rewrite Hss. pose proof (di_just_max _ _ _ _ _ _ _ Hi _ _ Hs). lia. }
      unfold src in *. destruct (N.eqb_spec (cp_root (s_justified s)) ZERO) as [Hz|Hz]; cbn [cp_root cp_slot] in *.
      - split_and!; try done. rewrite Hsl. destruct Hjs as [Hjs|[? ?]]; [|lia]. exfalso.
        destruct Hcase as [H0|(_ & _ & Hx & _)]; [lia|done].
      - split_and!; try done; destruct Hcase as [H0|(Hr & _)].
        + exfalso. destruct (di_chain _ _ _ _ _ _ _ Hi _ _ Hs) as (raw & bs & Hc & ->).
          apply Hz. destruct (decide (bs = [])) as [->|Hne]; [by apply chain_nil in Hc as ->|exfalso].
          destruct (exists_last Hne) as (bs' & b & ->). apply chain_snoc_inv in Hc as (s0 & _ & Hst).
          apply C02_block_linkage_pf in Hst as (Hl & _ & _ & _ & Hl5 & _). cbn in H0. lia.
        + by apply (Hroot _ _ Hr Hz ltac:(lia)).
        + exfalso. destruct (di_chain _ _ _ _ _ _ _ Hi _ _ Hs) as (raw & bs & Hc & ->).
          apply Hz. destruct (decide (bs = [])) as [->|Hne]; [by apply chain_nil in Hc as ->|exfalso].
          destruct (exists_last Hne) as (bs' & b & ->). apply chain_snoc_inv in Hc as (s0 & _ & Hst).
          apply C02_block_linkage_pf in Hst as (Hl & _ & _ & _ & Hl5 & _). cbn in H0. lia.
        + by apply (Hroot _ _ Hr Hz ltac:(lia)). }
    (* finalized on the chain *)
    assert (cp_root (db_fin d) ∈ l /\ slot_of (db_tab d) (cp_root (db_fin d)) = cp_slot (db_fin d)) as (Hfl1 & Hfl2).
    { destruct (decide (s_slot s = 0)) as [H0|Hn].
      - destruct (di_fin _ _ _ _ _ _ _ Hi) as (sf & Hwf & Hsf).
        destruct (w_header _ _ _ _ _ _ _ _ _ Hi Hwf) as (_ & _ & Hx). split; [|congruence].
        pose proof (fin_of_head E gt vals Hgood Hvals _ _ _ _ Hi Hok Hf Hs) as Hff.
        destruct (w_slot_ge _ _ _ Hvals _ _ _ _ _ _ Hi Hwf) as [_ HfA]. rewrite HfA by lia.
        destruct (w_slot_ge _ _ _ Hvals _ _ _ _ _ _ Hi Hs) as [_ HhA]. rewrite HhA in Hhl by lia. done.
      - rewrite (Hf eq_refl _ Hs Hn). destruct Hcase as [H0|(_ & Hr & _ & Hz & _)]; [done|].
        by apply (Hroot _ _ Hr Hz ltac:(lia)). }
    assert (forall c, cp_root c ∈ l -> slot_of (db_tab d) (cp_root c) = cp_slot c -> stored_at (db_tab d) c) as Hat.
    { intros c Hc1 Hc2. destruct (path_stored _ _ _ _ _ Hp Hc1) as [hx Hx]. exists hx. split; [done|].
      by rewrite <- Hc2, (slot_of_header _ _ _ Hx). }
    destruct (path_suffix _ _ _ _ _ _ Hp Hd Hsl1 Hcl ltac:(lia)) as (l2 & Hp2 & Hd2 & Hs2).
    split; cbn [ad_source ad_target ad_head ad_slot cp_root cp_slot].
    - by apply Hat.
    - by apply Hat.
    - apply Hat; cbn; [done|]. by rewrite (slot_of_header _ _ _ Hhh).
    - by eapply path_reaches.
    - by eapply path_reaches.
    - by eapply path_reaches.
    - rewrite <- (slot_of_header _ _ _ Hhh). done.
    - done.
  Qed.

  Lemma C34_valid_pf n0 es n slot a hd :
    started E (genesis (e_body E) gt vals) n0 -> node_run E n0 es n ->
    produce_attestation_data (nd_db n) slot = Ok a ->
    has_slot (tab n) (db_head (nd_db n)) hd -> hd <= slot -> slot * 5 <= db_time (nd_db n) + 1 ->
    vote_ok (nd_db n) a /\
    (acyclic_hash hh -> db_time (nd_db n) + 1 < two64 - 1 -> validate_attestation_data (nd_db n) a = Ok tt).
  Proof.
    intros Hs Hr Hpr (hx & Hx & Hxs) Hle Ht.
    assert (valid_anchor E gt vals (genesis (e_body E) gt vals)) as Ha.
    { exists (genesis (e_body E) gt vals), []. split; [constructor|by left]. }
    destruct (started_inv E gt vals Hgood Hvals _ n0 Ha Hs) as (w & Hi & Hok).
    change (s_slot (genesis (e_body E) gt vals)) with 0 in Hi.
    assert (fin_inv 0 w (nd_db n0)) as Hf.
    { intros _ s Hw Hn. exfalso. destruct (di_anchor _ _ _ _ _ _ _ (proj1 Hi)) as (sA & HA & H0).
      assert (s = sA) as -> by congruence. done. }
    destruct (run_inv E gt vals Hgood Hvals _ _ _ _ _ _ Hi Hr) as (w1 & Hst1).
    pose proof (so_head _ _ _ _ _ _ _ _ _ Hst1 Hok) as Hok1.
    pose proof (so_fin _ _ _ _ _ _ _ _ _ Hst1 Hf) as Hf1.
    destruct (so_inv _ _ _ _ _ _ _ _ _ Hst1) as [Hi1 _].
    assert (vote_ok (nd_db n) a) as Hv.
    { apply (inv_valid _ _ _ slot _ Hi1 Hok1 Hf1 Hpr); [|done]. unfold tab in Hx. by rewrite (slot_of_header _ _ _ Hx), Hxs. }
    split; [done|]. intros Hac Hb.
    by apply (C33_validation_iff_pf hh (nd_db n) a Hac (inv_hashed _ _ _ _ _ _ _ Hi1) Hb).
  Qed.
End Duty.
