(** Invariants of the node. *)
From Verif Require Export NodeSpec FCProofs StorageMore PoolProofs.

Lemma expect_Ok {E E' A} (r : res E A) (x : A) : expect (E' := E') r = Ok x -> r = Ok x.
Proof. destruct r; cbn; congruence. Qed.
Lemma keep_Ok {Er} n (r : res Er Node) n' : keep n r = Ok n' -> r = Ok n' \/ ((exists e, r = Err e) /\ n' = n).
Proof. destruct r; cbn; intros H; [left|right|]; try congruence. injection H as ->. eauto. Qed.

Section NodeInv.
  Context (E : Env) (gt : N) (vals : list Validator).
  Notation hs := (e_state E).
  Notation hh := (e_header E).
  Notation hb := (e_body E).
  Notation stf_ := (state_transition hs hh hb).
  Notation chain_ := (chain hs hh hb gt vals).
  Notation root_ := (block_root hh hb).
  Context (Hgood : good_hash hh) (Hvals : lenN vals <= VALIDATOR_REGISTRY_LIMIT).
  Local Definition Hinj := proj1 Hgood.
  Local Definition Hnz := proj2 Hgood.

  Definition seal (s : State) : State := with_header s (filled_header hs s).

  Lemma seal_slot s : s_slot (seal s) = s_slot s. Proof. done. Qed.
  Lemma seal_hslot s : h_slot (s_header (seal s)) = h_slot (s_header s).
  Proof. unfold seal, filled_header. cbn. by destruct (_ =? _). Qed.
  Lemma seal_filled s : s_header (seal s) = filled_header hs s. Proof. done. Qed.

  Lemma process_slots_seal s t : process_slots hs (seal s) t = process_slots hs s t.
  Proof.
    unfold process_slots. rewrite seal_slot. destruct (t <=? s_slot s); [done|]. f_equal. f_equal.
    unfold seal, filled_header. destruct (N.eqb_spec (h_state_root (s_header s)) ZERO) as [Hz|Hz].
    - cbn [s_header with_header h_state_root set_state_root].
      destruct (N.eqb_spec (hs s) ZERO) as [He|He]; [|done].
      assert (with_header s (set_state_root (s_header s) (hs s)) = s) as Hs.
      { rewrite He. destruct s as [? ? [] ? ? ? ? ? ? ?]; cbn in *. by subst. }
      by rewrite !Hs.
    - cbn [s_header with_header].
      destruct (N.eqb_spec (h_state_root (s_header s)) ZERO); [done|]. by destruct s.
  Qed.
  Lemma stf_seal s b : stf_ (seal s) b = stf_ s b.
  Proof. unfold state_transition. by rewrite process_slots_seal. Qed.
  Lemma stored_seal p b post : stf_ p b = Ok post -> stored_state post b = seal post.
  Proof.
    intros H. apply C02_block_linkage_pf in H as (_ & _ & _ & Hsr & _ & Hh & _).
    unfold stored_state, seal, filled_header. rewrite Hh. cbn. by rewrite Hsr.
  Qed.
  Lemma anchor_seal s bs : chain_ s bs -> stored_anchor hs s = seal s.
  Proof.
    intros Hc. unfold stored_anchor, seal, filled_header.
    assert (h_state_root (s_header s) = ZERO) as Hz.
    { destruct (decide (bs = [])) as [->|Hne].
      - by apply chain_nil in Hc as ->.
      - destruct (exists_last Hne) as (bs' & b & ->). apply chain_snoc_inv in Hc as (s0 & _ & Hst).
        apply C02_block_linkage_pf in Hst as (_ & _ & _ & _ & _ & Hh & _). by rewrite Hh. }
    rewrite Hz, N.eqb_refl.
    assert (with_header s (set_state_root (s_header s) ZERO) = s) as ->; [|done].
    destruct s as [? ? [] ? ? ? ? ? ? ?]; cbn in *. by subst.
  Qed.
  Lemma anchor_seal' s bs : chain_ s bs -> stored_anchor hs (seal s) = seal s.
  Proof.
    intros Hc. rewrite <- (anchor_seal _ _ Hc) at 1. pose proof (anchor_seal _ _ Hc) as H.
    unfold stored_anchor in *. cbn. rewrite <- H. done.
  Qed.

  (** Invariant of the database; [w] records the stored state of every imported
      block, [A] is the anchor's root, [As] its slot. *)
  Record db_inv (A : H256) (As : N) (w : gmap H256 State) (d : Db) : Prop := {
    di_st : st_inv hs hh (db_tab d) [] w;
    di_anchor : exists s, w !! A = Some s /\ s_slot s = As;
    di_chain : forall r s, w !! r = Some s -> exists raw bs, chain_ raw bs /\ s = seal raw;
    di_path : forall r s, w !! r = Some s -> exists l,
      path (db_tab d) A r l /\ descending (db_tab d) l /\
      (forall x, x ∈ l -> is_Some (w !! x)) /\
      (forall i x, root_at s i = Some x -> x <> ZERO -> As <= i -> x ∈ l /\ slot_of (db_tab d) x = i);
    di_link : forall r s, w !! r = Some s -> r <> A -> exists p b post,
      w !! h_parent (s_header s) = Some p /\ stf_ p b = Ok post /\ s = stored_state post b;
    di_live : forall sl r p, t_live (db_tab d) !! (sl, r) = Some p -> exists s,
      w !! r = Some s /\ sl = s_slot s /\ p = h_parent (s_header s);
    di_live_all : forall r s, w !! r = Some s -> cp_slot (db_just d) <= s_slot s ->
      t_live (db_tab d) !! (s_slot s, r) = Some (h_parent (s_header s));
    di_just : exists s, w !! cp_root (db_just d) = Some s /\ s_slot s = cp_slot (db_just d);
    di_just_max : forall r s, w !! r = Some s -> cp_slot (s_justified s) <= cp_slot (db_just d);
    di_fin : exists s, w !! cp_root (db_fin d) = Some s /\ s_slot s = cp_slot (db_fin d);
    di_fin_just : cp_slot (db_fin d) <= cp_slot (db_just d);
    di_head : is_Some (w !! db_head d);
    di_safe : is_Some (w !! db_safe d);
    di_headers : forall r h, t_headers (db_tab d) !! r = Some h -> r = A \/ As < h_slot h;
    di_index : index_exact (db_tab d) A (db_head d) }.

  Lemma w_header A As w d r s :
    db_inv A As w d -> w !! r = Some s ->
    t_headers (db_tab d) !! r = Some (s_header s) /\ s_slot s = h_slot (s_header s) /\
    slot_of (db_tab d) r = s_slot s.
  Proof.
    intros Hi Hw. destruct (si_head _ _ _ _ _ (di_st _ _ _ _ Hi) _ _ Hw) as (H1 & H2 & _).
    split_and!; try done. by rewrite (slot_of_header _ _ _ H1).
  Qed.
  Lemma w_read A As w d r s : db_inv A As w d -> w !! r = Some s -> read_state (db_tab d) r = Ok (Some s).
  Proof. intros Hi. eapply read_spec, Hi. Qed.
  Lemma w_read_none A As w d r : db_inv A As w d -> w !! r = None -> read_state (db_tab d) r = Ok None.
  Proof. intros Hi. eapply read_none, Hi. Qed.
  Lemma w_nonzero A As w d r : db_inv A As w d -> is_Some (w !! r) -> r <> ZERO.
  Proof.
    intros Hi [s Hw]. destruct (w_header _ _ _ _ _ _ Hi Hw) as (Hh & _).
    rewrite <- (si_hash _ _ _ _ _ (di_st _ _ _ _ Hi) _ _ Hh). apply Hnz.
  Qed.

  (** A block with a state other than the anchor: its parent has one too, at a
      smaller slot. *)
  Lemma w_parent A As w d r s :
    db_inv A As w d -> w !! r = Some s -> r <> A ->
    exists p, w !! h_parent (s_header s) = Some p /\ s_slot p < s_slot s.
  Proof.
    intros Hi Hw Hne. destruct (di_path _ _ _ _ Hi _ _ Hw) as (l & Hp & Hd & Hin & _).
    destruct (w_header _ _ _ _ _ _ Hi Hw) as (Hh & _ & Hsl).
    inversion Hp as [|r' h' l' _ Hh' Hp' E1]; [done|]; subst. simplify_eq.
    destruct (path_head _ _ _ _ Hp') as [l'' ->].
    destruct (Hin (h_parent (s_header s))) as [p Hpw]; [right; left|]. exists p. split; [done|].
    destruct (w_header _ _ _ _ _ _ Hi Hpw) as (_ & _ & Hslp). rewrite <- Hsl, <- Hslp.
    eapply descending_head; [exact Hp|done|left].
  Qed.
  Lemma w_slot_ge A As w d r s : db_inv A As w d -> w !! r = Some s -> As <= s_slot s /\ (s_slot s = As -> r = A).
  Proof.
    intros Hi Hw. destruct (di_path _ _ _ _ Hi _ _ Hw) as (l & Hp & Hd & Hin & _).
    destruct (di_anchor _ _ _ _ Hi) as (sa & Ha & Has).
    destruct (w_header _ _ _ _ _ _ Hi Hw) as (Hh & Hsh & Hsl).
    destruct (w_header _ _ _ _ _ _ Hi Ha) as (_ & _ & Hsla).
    destruct (decide (r = A)) as [->|Hne]; [rewrite Hw in Ha; simplify_eq; split; [lia|done]|].
    destruct (path_head _ _ _ _ Hp) as [l' ->].
    assert (A ∈ l') as HA.
    { pose proof (path_anchor_in _ _ _ _ Hp) as H. apply elem_of_cons in H as [?|?]; congruence. }
    pose proof (descending_head _ _ _ _ _ Hp Hd HA). split; [lia|]. lia.
  Qed.

  (** *** Live chain *)
  Lemma live_keys A As w d :
    db_inv A As w d ->
    NoDup (map fst (map (fun e : N * H256 * H256 => (e.1.2, (e.1.1, e.2))) (map_to_list (t_live (db_tab d))))).
  Proof.
    intros Hi. rewrite map_map. cbn [fst].
    assert (forall e, e ∈ map_to_list (t_live (db_tab d)) -> t_live (db_tab d) !! e.1 = Some e.2) as Hin.
    { intros [k v] He. by apply elem_of_map_to_list in He. }
    pose proof (NoDup_fst_map_to_list (t_live (db_tab d))) as Hnd.
    induction (map_to_list (t_live (db_tab d))) as [|[[sl r] p] l IH]; [constructor|].
    cbn [map]. cbn [fmap list_fmap fst] in Hnd. apply NoDup_cons in Hnd as [Hni Hnd].
    apply NoDup_cons. split.
    - intros Hr. apply elem_of_map in Hr as ([[sl' r'] p'] & Heq & He). cbn in Heq. subst r'.
      apply Hni. apply elem_of_list_fmap. exists (sl', r, p'). split; [|done]. cbn.
      pose proof (Hin (sl, r, p) ltac:(left)) as H1. pose proof (Hin (sl', r, p') ltac:(by right)) as H2.
      cbn in H1, H2. apply (di_live _ _ _ _ Hi) in H1 as (s & Hw & -> & _).
      apply (di_live _ _ _ _ Hi) in H2 as (s' & Hw' & -> & _). by simplify_eq.
    - apply IH; [|done]. intros e He. apply Hin. by right.
  Qed.
  Lemma live_lookup A As w d r sl p :
    db_inv A As w d ->
    live_chain (db_tab d) !! r = Some (sl, p) <-> t_live (db_tab d) !! (sl, r) = Some p.
  Proof.
    intros Hi. unfold live_chain. rewrite <- elem_of_list_to_map by (apply (live_keys _ _ _ _ Hi)).
    rewrite elem_of_map. split.
    - intros ([[sl' r'] p'] & Heq & He). cbn in Heq. simplify_eq. by apply elem_of_map_to_list in He.
    - intros H. exists (sl, r, p). split; [done|]. by apply elem_of_map_to_list.
  Qed.
  Lemma live_w A As w d r sl p :
    db_inv A As w d -> live_chain (db_tab d) !! r = Some (sl, p) ->
    exists s, w !! r = Some s /\ sl = s_slot s /\ p = h_parent (s_header s).
  Proof. intros Hi H. apply (live_lookup _ _ _ _ _ _ _ Hi) in H. by apply (di_live _ _ _ _ Hi). Qed.
  Lemma live_decreasing A As w d : db_inv A As w d -> slots_decrease (live_chain (db_tab d)).
  Proof.
    intros Hi r s p s' p' H1 H2.
    destruct (live_w _ _ _ _ _ _ _ Hi H1) as (st & Hw & -> & ->).
    destruct (live_w _ _ _ _ _ _ _ Hi H2) as (st' & Hw' & -> & _).
    destruct (decide (r = A)) as [->|Hne].
    - (* the anchor's parent is older than the anchor, hence not stored *)
      exfalso. destruct (di_anchor _ _ _ _ Hi) as (sa & Ha & Has). rewrite Hw in Ha. injection Ha as ->.
      destruct (w_slot_ge _ _ _ _ _ _ Hi Hw') as [Hge Heq].
      destruct (di_chain _ _ _ _ Hi _ _ Hw) as (raw & bs & Hc & ->).
      destruct (decide (bs = [])) as [->|Hne].
      + apply chain_nil in Hc as ->. cbn in Hw'.
        unfold seal, filled_header in Hw'. cbn in Hw'.
        apply (w_nonzero _ _ _ _ ZERO Hi); eauto.
      + destruct (exists_last Hne) as (bs' & b & ->). apply chain_snoc_inv in Hc as (s0 & Hc0 & Hst).
        pose proof (C02_block_linkage_pf _ _ _ _ _ _ Hst) as (Hl1 & Hl2 & Hl3 & _ & Hl5 & Hl6 & _).
        assert (h_parent (s_header (seal raw)) = hh (filled_header hs s0)) as Hpar.
        { unfold seal, filled_header. rewrite Hl6. cbn. by rewrite Hl3. }
        rewrite Hpar in Hw'. destruct (w_header _ _ _ _ _ _ Hi Hw') as (Hh' & Hs' & _).
        pose proof (si_hash _ _ _ _ _ (di_st _ _ _ _ Hi) _ _ Hh') as Hhash.
        apply Hinj in Hhash. rewrite Hs', Hhash in Hge.
        assert (h_slot (filled_header hs s0) = h_slot (s_header s0)) as Hf.
        { unfold filled_header. by destruct (_ =? _). }
        rewrite Hf in Hge. cbn [seal with_header s_slot] in Has. lia.
    - destruct (w_parent _ _ _ _ _ _ Hi Hw Hne) as (q & Hq & Hlt). by simplify_eq.
  Qed.
  Lemma live_zero A As w d : db_inv A As w d -> live_chain (db_tab d) !! ZERO = None.
  Proof.
    intros Hi. destruct (live_chain (db_tab d) !! ZERO) as [[sl p]|] eqn:H; [|done]. exfalso.
    destruct (live_w _ _ _ _ _ _ _ Hi H) as (s & Hw & _). by apply (w_nonzero _ _ _ _ ZERO Hi); eauto.
  Qed.
  Lemma live_just A As w d :
    db_inv A As w d -> exists p, live_chain (db_tab d) !! cp_root (db_just d) = Some (cp_slot (db_just d), p).
  Proof.
    intros Hi. destruct (di_just _ _ _ _ Hi) as (s & Hw & Hs). exists (h_parent (s_header s)).
    rewrite <- Hs. apply (live_lookup _ _ _ _ _ _ _ Hi). apply (di_live_all _ _ _ _ Hi); [done|lia].
  Qed.

  (** Descent in the live chain follows the path to the anchor. *)
  Lemma descends_path A As w d r a :
    db_inv A As w d -> descends (live_chain (db_tab d)) r a ->
    exists l, path (db_tab d) A r l /\ descending (db_tab d) l /\ a ∈ l.
  Proof.
    intros Hi H. pose proof (live_decreasing _ _ _ _ Hi) as Hdec.
    induction H as [r e He|r s p a He H IH].
    - destruct e as [sl p]. destruct (live_w _ _ _ _ _ _ _ Hi He) as (s & Hw & _).
      destruct (di_path _ _ _ _ Hi _ _ Hw) as (l & Hp & Hd & _).
      exists l. split_and!; try done. destruct (path_head _ _ _ _ Hp) as [l' ->]. left.
    - destruct IH as (l & Hp & Hd & Ha).
      destruct (live_w _ _ _ _ _ _ _ Hi He) as (st & Hw & -> & ->).
      destruct (di_path _ _ _ _ Hi _ _ Hw) as (l' & Hp' & Hd' & _).
      exists l'. split_and!; try done.
      destruct (decide (r = A)) as [->|Hne].
      + (* the anchor's parent is not live *)
        exfalso. apply descends_in in H as [[[sp pp] Hpp] _].
        pose proof (Hdec _ _ _ _ _ He Hpp) as Hlt.
        destruct (live_w _ _ _ _ _ _ _ Hi Hpp) as (sp' & Hwp & -> & _).
        destruct (w_slot_ge _ _ _ _ _ _ Hi Hwp) as [Hge _].
        destruct (di_anchor _ _ _ _ Hi) as (sa & HA & HAs). simplify_eq. lia.
      + inversion Hp' as [|r' h' l'' _ Hh' Hp'' E1]; [done|]; subst.
        destruct (w_header _ _ _ _ _ _ Hi Hw) as (Hh & _). simplify_eq.
        rewrite (path_det _ _ _ _ _ Hp'' Hp). by right.
  Qed.
  (** Conversely, between a block and a block not older than the justified one. *)
  Lemma path_descends A As w d r l a sa :
    db_inv A As w d -> path (db_tab d) A r l -> descending (db_tab d) l ->
    (forall x, x ∈ l -> is_Some (w !! x)) -> a ∈ l ->
    w !! a = Some sa -> cp_slot (db_just d) <= s_slot sa ->
    descends (live_chain (db_tab d)) r a.
  Proof.
    intros Hi Hp. induction Hp as [h Hh|r h l Hne Hh Hp IH]; intros Hd Hin Ha Hwa Hj.
    - apply elem_of_list_singleton in Ha as ->. apply (desc_refl _ _ (s_slot sa, h_parent (s_header sa))).
      apply (live_lookup _ _ _ _ _ _ _ Hi). by apply (di_live_all _ _ _ _ Hi).
    - destruct (Hin r) as [s Hw]; [left|].
      assert (cp_slot (db_just d) <= s_slot s) as Hjs.
      { apply elem_of_cons in Ha as [->|Ha]; [by simplify_eq|].
        destruct (w_header _ _ _ _ _ _ Hi Hw) as (_ & _ & Hsl).
        destruct (w_header _ _ _ _ _ _ Hi Hwa) as (_ & _ & Hsla).
        assert (slot_of (db_tab d) a < slot_of (db_tab d) r); [|lia].
        eapply descending_head; [by econstructor|exact Hd|done]. }
      assert (live_chain (db_tab d) !! r = Some (s_slot s, h_parent (s_header s))) as Hl.
      { apply (live_lookup _ _ _ _ _ _ _ Hi). by apply (di_live_all _ _ _ _ Hi). }
      apply elem_of_cons in Ha as [->|Ha]; [by eapply desc_refl|].
      eapply desc_step; [exact Hl|].
      destruct (w_header _ _ _ _ _ _ Hi Hw) as (Hh' & _). simplify_eq.
      apply IH; try done; [by eapply descending_tail|]. intros x Hx. apply Hin. by right.
  Qed.

  (** *** Preservation *)
  Lemma index_keep t t' A head l :
    (forall r h, t_headers t !! r = Some h -> t_headers t' !! r = Some h) ->
    t_roots t' = t_roots t -> path t A head l -> index_exact t A head -> index_exact t' A head.
  Proof.
    intros Hk Hr Hp Hix s r. rewrite Hr, (Hix s r). split.
    - intros (l1 & h & Hp1 & Hin & Hh & Hs). exists l1, h. split_and!; eauto. by eapply path_keep.
    - intros (l1 & h & Hp1 & Hin & Hh & Hs).
      pose proof (path_keep _ _ _ _ _ Hk Hp) as Hp'. rewrite (path_det _ _ _ _ _ Hp1 Hp') in Hin.
      destruct (path_stored _ _ _ _ _ Hp Hin) as [h' Hh']. pose proof (Hk _ _ Hh') as Hh2. simplify_eq.
      exists l, h. done.
  Qed.

  Lemma db_inv_change A As w d d' :
    db_inv A As w d ->
    (forall r h, t_headers (db_tab d) !! r = Some h -> t_headers (db_tab d') !! r = Some h) ->
    (forall r h, t_headers (db_tab d') !! r = Some h ->
       hh h = r /\ (t_headers (db_tab d) !! r = Some h \/ As < h_slot h)) ->
    t_states (db_tab d') = t_states (db_tab d) -> t_diffs (db_tab d') = t_diffs (db_tab d) ->
    (forall k p, t_live (db_tab d') !! k = Some p -> t_live (db_tab d) !! k = Some p) ->
    (forall k p, t_live (db_tab d) !! k = Some p -> cp_slot (db_just d') <= k.1 ->
       t_live (db_tab d') !! k = Some p) ->
    cp_slot (db_just d) <= cp_slot (db_just d') ->
    (exists s, w !! cp_root (db_just d') = Some s /\ s_slot s = cp_slot (db_just d')) ->
    (exists s, w !! cp_root (db_fin d') = Some s /\ s_slot s = cp_slot (db_fin d')) ->
    cp_slot (db_fin d') <= cp_slot (db_just d') ->
    is_Some (w !! db_head d') -> is_Some (w !! db_safe d') ->
    index_exact (db_tab d') A (db_head d') ->
    db_inv A As w d'.
  Proof.
    intros Hi Hk Hnew Hst Hdf Hl1 Hl2 Hjj Hj Hf Hfj Hhd Hsf Hix.
    assert (forall r s, w !! r = Some s -> slot_of (db_tab d') r = slot_of (db_tab d) r) as Hslot.
    { intros r s Hw. destruct (w_header _ _ _ _ _ _ Hi Hw) as (Hh & _).
      by rewrite (slot_of_header _ _ _ Hh), (slot_of_header _ _ _ (Hk _ _ Hh)). }
    split; try done.
    - destruct (di_st _ _ _ _ Hi) as [H1 H2 H3 H4 H5 H6]. split.
      + intros r h Hh. by apply Hnew in Hh as [? _].
      + intros r s Hw. destruct (H2 _ _ Hw) as (? & ? & ?). split_and!; try done. by apply Hk.
      + rewrite Hst. done.
      + rewrite Hdf. done.
      + rewrite Hst, Hdf. done.
      + intros r s H. by apply elem_of_nil in H.
    - apply Hi.
    - apply Hi.
    - intros r s Hw. destruct (di_path _ _ _ _ Hi _ _ Hw) as (l & Hp & Hd & Hin & Hroot). exists l. split_and!.
      + by eapply path_keep.
      + by eapply descending_keep.
      + done.
      + intros i x Hx Hxz Hxi. destruct (Hroot _ _ Hx Hxz Hxi) as [Hxl Hxs]. split; [done|].
        destruct (Hin _ Hxl) as [sx Hwx]. by rewrite (Hslot _ _ Hwx).
    - apply Hi.
    - intros sl r p Hl. by apply (di_live _ _ _ _ Hi), Hl1.
    - intros r s Hw Hge. apply Hl2; [|done]. apply (di_live_all _ _ _ _ Hi); [done|lia].
    - intros r s Hw. pose proof (di_just_max _ _ _ _ Hi _ _ Hw). lia.
    - intros r h Hh. apply Hnew in Hh as [_ [Hh|Hh]]; [|by right]. by apply (di_headers _ _ _ _ Hi) in Hh.
  Qed.

  Lemma db_inv_same_headers A As w d r h :
    db_inv A As w d -> t_headers (db_tab d) !! r = Some h -> hh h = r /\ (t_headers (db_tab d) !! r = Some h \/ As < h_slot h).
  Proof. intros Hi Hh. split; [|by left]. by apply (si_hash _ _ _ _ _ (di_st _ _ _ _ Hi)). Qed.

  (** The head and checkpoint commit. *)
  Lemma db_inv_apply A As w d new just fin :
    db_inv A As w d -> is_Some (w !! new) ->
    (forall j, just = Some j -> cp_slot (db_just d) <= cp_slot j /\ exists s, w !! cp_root j = Some s /\ s_slot s = cp_slot j) ->
    (forall f, fin = Some f -> cp_slot f <= cp_slot (default (db_just d) just) /\
       exists s, w !! cp_root f = Some s /\ s_slot s = cp_slot f) ->
    exists d', apply_checkpoints d new just fin = Ok d' /\ db_inv A As w d' /\
      db_head d' = new /\ db_just d' = default (db_just d) just /\ db_fin d' = default (db_fin d) fin /\
      db_time d' = db_time d /\ db_gt d' = db_gt d /\ db_safe d' = db_safe d /\
      t_live (db_tab d') = t_live (db_tab d) /\ t_headers (db_tab d') = t_headers (db_tab d) /\
      t_states (db_tab d') = t_states (db_tab d) /\ t_diffs (db_tab d') = t_diffs (db_tab d) /\
      t_bodies (db_tab d') = t_bodies (db_tab d) /\ t_proofs (db_tab d') = t_proofs (db_tab d).
  Proof.
    intros Hi [sn Hn] Hj Hf.
    destruct (di_head _ _ _ _ Hi) as [so Ho].
    destruct (di_path _ _ _ _ Hi _ _ Ho) as (lo & Hpo & Hdo & _).
    destruct (di_path _ _ _ _ Hi _ _ Hn) as (ln & Hpn & Hdn & _).
    destruct (head_change d A new lo ln just fin (di_index _ _ _ _ Hi) Hpo Hdo Hpn Hdn) as (roots & -> & Hix).
    eexists. split; [done|]. split; [|done].
    apply (db_inv_change _ _ _ d); cbn; try done.
    - intros r h Hh. by eapply db_inv_same_headers.
    - destruct just as [j|]; cbn; [by apply Hj|done].
    - destruct just as [j|]; cbn; [by apply Hj|apply Hi].
    - destruct fin as [f|]; cbn; [by apply Hf|apply Hi].
    - destruct fin as [f|]; cbn; [by apply Hf|].
      pose proof (di_fin_just _ _ _ _ Hi). destruct just as [j|]; cbn; [destruct (Hj _ eq_refl)|]; lia.
    - apply Hi.
  Qed.

  Lemma db_inv_prune A As w d f :
    db_inv A As w d -> f <= cp_slot (db_just d) ->
    db_inv A As w (with_tab d (prune_live_chain (db_tab d) f)).
  Proof.
    intros Hi Hf. apply (db_inv_change _ _ _ d); cbn; try done; try apply Hi.
    - intros r h Hh. by eapply db_inv_same_headers.
    - intros k p Hk. by apply map_filter_lookup_Some in Hk as [? _].
    - intros k p Hk Hle. apply map_filter_lookup_Some. split; [done|]. cbn. lia.
    - destruct (di_head _ _ _ _ Hi) as [s Hw]. destruct (di_path _ _ _ _ Hi _ _ Hw) as (l & Hp & _).
      apply (index_keep (db_tab d) _ _ _ l); try done. apply Hi.
  Qed.

  Lemma db_inv_prune_old A As w d :
    db_inv A As w d -> exists d', prune_old_data d = Ok d' /\ db_inv A As w d' /\
      db_head d' = db_head d /\ db_just d' = db_just d /\ db_fin d' = db_fin d /\ db_time d' = db_time d /\
      t_live (db_tab d') = t_live (db_tab d) /\ t_headers (db_tab d') = t_headers (db_tab d).
  Proof.
    intros Hi. destruct (di_head _ _ _ _ Hi) as [s Hw]. destruct (w_header _ _ _ _ _ _ Hi Hw) as (Hh & _).
    unfold prune_old_data, get_header. rewrite Hh. eexists. split; [done|].
    set (x := prune_old_block_proofs _ _ _).
    destruct (C24_proofs_pf (db_tab d) (cp_slot (db_fin d)) (h_slot (s_header s)) 0 0)
      as (_ & E1 & E2 & E3 & E4 & E5 & E6). fold x in E1, E2, E3, E4, E5, E6.
    split; [|cbn; done].
    apply (db_inv_change _ _ _ d); cbn; try done; try apply Hi; try (rewrite ?E6, ?E1; done).
    - rewrite E1. intros r h Hh'. by eapply db_inv_same_headers.
    - destruct (di_path _ _ _ _ Hi _ _ Hw) as (l & Hp & _).
      apply (index_keep (db_tab d) _ _ _ l); try done; [by rewrite E1|apply Hi].
  Qed.

  Lemma db_inv_time A As w d t : db_inv A As w d -> db_inv A As w (set_time d t).
  Proof.
    intros Hi. apply (db_inv_change _ _ _ d); cbn; try done; try apply Hi.
    intros r h Hh. by eapply db_inv_same_headers.
  Qed.
  Lemma db_inv_safe A As w d r : db_inv A As w d -> is_Some (w !! r) -> db_inv A As w (set_safe_target d r).
  Proof.
    intros Hi Hr. apply (db_inv_change _ _ _ d); cbn; try done; try apply Hi.
    intros x h Hh. by eapply db_inv_same_headers.
  Qed.

  Lemma db_inv_fin_ge A As w d : db_inv A As w d -> As <= cp_slot (db_fin d) /\ As <= cp_slot (db_just d).
  Proof.
    intros Hi. destruct (di_fin _ _ _ _ Hi) as (s & Hw & Hs). destruct (w_slot_ge _ _ _ _ _ _ Hi Hw) as [H _].
    pose proof (di_fin_just _ _ _ _ Hi). lia.
  Qed.

  Lemma write_other t root sb :
    t_roots (write_signed_block hb t root sb) = t_roots t /\ t_live (write_signed_block hb t root sb) = t_live t.
  Proof. unfold write_signed_block. by destruct (_ =? _). Qed.

  (** A block written to the database, its state not (yet). *)
  Lemma header_write A As w d sb :
    db_inv A As w d -> As < b_slot (sb_block sb) ->
    let root := root_ (sb_block sb) in
    (forall r h, t_headers (db_tab d) !! r = Some h ->
       <[root := header_of hb (sb_block sb)]> (t_headers (db_tab d)) !! r = Some h) /\
    (forall r h, <[root := header_of hb (sb_block sb)]> (t_headers (db_tab d)) !! r = Some h ->
       hh h = r /\ (t_headers (db_tab d) !! r = Some h \/ As < h_slot h)).
  Proof.
    intros Hi Hs root. split.
    - intros r h Hh. destruct (decide (r = root)) as [->|Hne]; [|by rewrite lookup_insert_ne].
      rewrite lookup_insert. f_equal. apply Hinj.
      by rewrite (si_hash _ _ _ _ _ (di_st _ _ _ _ Hi) _ _ Hh).
    - intros r h [[<- <-]|[Hne Hh]]%lookup_insert_Some.
      + split; [done|]. by right.
      + by eapply db_inv_same_headers.
  Qed.

  Lemma db_inv_pending A As w d sb :
    db_inv A As w d -> cp_slot (db_fin d) < b_slot (sb_block sb) ->
    db_inv A As w (with_tab d (insert_pending_block hb (db_tab d) (root_ (sb_block sb)) sb)).
  Proof.
    intros Hi Hs. destruct (db_inv_fin_ge _ _ _ _ Hi) as [Hge _].
    destruct (header_write _ _ _ _ sb Hi ltac:(lia)) as [Hk Hn].
    destruct (write_other (db_tab d) (root_ (sb_block sb)) sb) as [Er El].
    apply (db_inv_change _ _ _ d); cbn [db_tab with_tab db_just db_fin db_head db_safe]; unfold insert_pending_block;
      rewrite ?write_headers_row, ?write_states, ?write_diffs, ?El; try done; try apply Hi.
    destruct (di_head _ _ _ _ Hi) as [s Hw]. destruct (di_path _ _ _ _ Hi _ _ Hw) as (l & Hp & _).
    apply (index_keep (db_tab d) _ _ _ l); try done; [|apply Hi]. by rewrite write_headers_row.
  Qed.

  (** History of a child state. *)
  Lemma root_at_child p b post i x :
    stf_ p b = Ok post -> sealed hs p -> s_slot p = h_slot (s_header p) -> lenN (s_hist p) = s_slot p ->
    root_at (stored_state post b) i = Some x -> x <> ZERO ->
    (i < s_slot p /\ root_at p i = Some x) \/ (i = s_slot p /\ x = b_parent b).
  Proof.
    intros Hst Hse Hsl Hlen Hr Hx.
    destruct (stored_facts hs hh hb _ _ _ Hst Hse Hsl) as (_ & _ & _ & _ & Hh & _).
    unfold root_at in *. rewrite Hh in Hr. unfold lenN in Hlen.
    destruct (decide (N.to_nat i < length (s_hist p))%nat) as [Hlt|Hge].
    - left. rewrite lookup_app_l in Hr by done. split; [lia|done].
    - right. rewrite lookup_app_r in Hr by lia.
      destruct (N.to_nat i - length (s_hist p))%nat as [|k] eqn:Ek.
      + cbn in Hr. injection Hr as <-. split; [lia|done].
      + cbn in Hr. apply lookup_replicate in Hr as [-> _]. done.
  Qed.

  Lemma w_chain_facts A As w d r s :
    db_inv A As w d -> w !! r = Some s ->
    lenN (s_hist s) = s_slot s /\ sealed hs s /\ s_slot s = h_slot (s_header s) /\ s_validators s = vals /\
    cp_slot (s_finalized s) <= cp_slot (s_justified s) /\
    (cp_slot (s_justified s) < s_slot s \/ (cp_slot (s_justified s) = 0 /\ s_slot s = 0)) /\
    (s_slot s = 0 \/
      (root_at s (cp_slot (s_justified s)) = Some (cp_root (s_justified s)) /\
       root_at s (cp_slot (s_finalized s)) = Some (cp_root (s_finalized s)) /\
       cp_root (s_justified s) <> ZERO /\ cp_root (s_finalized s) <> ZERO /\
       exists h, hh h = cp_root (s_finalized s) /\ h_slot h = cp_slot (s_finalized s))).
  Proof.
    intros Hi Hw. destruct (si_head _ _ _ _ _ (di_st _ _ _ _ Hi) _ _ Hw) as (_ & Hsl & Hse).
    destruct (di_chain _ _ _ _ Hi _ _ Hw) as (raw & bs & Hc & ->).
    destruct (chain_last_slot _ _ _ _ _ _ _ Hc) as (H1 & H2 & H3 & H4).
    destruct (chain_order _ _ _ _ _ _ _ Hc) as (H5 & H6).
    pose proof (cf_vals _ _ _ _ _ _ _ (chain_has_facts _ _ _ _ _ _ _ Hc)) as Hv.
    split_and!; try done.
    destruct (decide (bs = [])) as [->|Hne].
    - left. apply chain_nil in Hc as ->. done.
    - right. destruct (chain_checkpoints _ _ _ _ _ _ _ Hc Hne) as (HF & HJ & HFr & HJr & Hzz).
      destruct Hzz as [Hz1 Hz2]; [apply Hnz|]. split_and!; try done.
      unfold chain_entries in HF. apply elem_of_cons in HF as [HF|HF].
      + unfold genesis_root in HF. injection HF as HF1 HF2. cbn. rewrite HF1, HF2. eexists. split; [done|]. cbn. reflexivity.
      + apply elem_of_map in HF as (b & HF & _). injection HF as HF1 HF2. cbn. rewrite HF1, HF2.
        exists (header_of hb b). done.
  Qed.

  Lemma zero_header A As w d : db_inv A As w d -> t_headers (db_tab d) !! ZERO = None.
  Proof.
    intros Hi. destruct (t_headers (db_tab d) !! ZERO) as [h|] eqn:Hh; [|done].
    apply (si_hash _ _ _ _ _ (di_st _ _ _ _ Hi)) in Hh. by apply Hnz in Hh.
  Qed.

  (** *** Initial database *)
  Lemma db_inv_init a body d :
    valid_anchor E gt vals a -> init_store hs hh empty_tables a body = Ok d ->
    db_inv (db_head d) (s_slot a) {[ db_head d := stored_anchor hs a ]} d /\
    db_just d = db_fin d /\ db_just d = mkCp (db_head d) (s_slot a) /\ db_safe d = db_head d /\ db_time d = 0 /\
    db_gt d = s_genesis_time a.
  Proof.
    intros (raw & bs & Hc & Ha) Hi0.
    assert (stored_anchor hs a = seal raw) as Hsa.
    { destruct Ha as [->| ->]; [by eapply anchor_seal|by eapply anchor_seal']. }
    assert (s_slot a = s_slot raw) as Hsl by (by destruct Ha as [->| ->]).
    assert (h_slot (s_header a) = h_slot (s_header raw)) as Hhsl.
    { destruct Ha as [->| ->]; [done|]. apply seal_hslot. }
    destruct (chain_last_slot _ _ _ _ _ _ _ Hc) as (_ & Hlen & Hhs & _).
    destruct (chain_order _ _ _ _ _ _ _ Hc) as (Hfj & Hjs).
    assert (s_slot a = h_slot (s_header a)) as Has by lia.
    pose proof (state_run_inv hs hh hb Hinj a _ _ _ Has (sr_init hs hh hb a body d Hi0)) as Hst.
    destruct (init_index _ _ _ _ _ _ Hi0 eq_refl) as (Hix & Hp & Hd).
    apply init_unfold in Hi0 as [_ Hd0].
    set (A := db_head d) in *. set (sd := stored_anchor hs a) in *.
    assert (h_parent (s_header a) = h_parent (s_header sd)) as Hpar by done.
    assert (s_slot sd = s_slot a) as Hsds by done.
    assert (A = hh (s_header sd)) as HA by (unfold A; by rewrite Hd0).
    assert (t_live (db_tab d) = <[(s_slot a, A) := h_parent (s_header sd)]> ∅) as Hlive.
    { rewrite Hd0, Has. cbn. unfold A. rewrite Hd0. done. }
    assert (t_headers (db_tab d) = <[A := s_header sd]> ∅) as Hhd.
    { rewrite Hd0. cbn. unfold A. rewrite Hd0. done. }
    assert (db_just d = mkCp A (s_slot a)) as Hj by (unfold A; rewrite Hd0; cbn; by rewrite Has).
    assert (db_fin d = mkCp A (s_slot a)) as Hf by (unfold A; rewrite Hd0; cbn; by rewrite Has).
    assert (db_safe d = A /\ db_time d = 0 /\ db_gt d = s_genesis_time a) as (Hsf & Ht & Hg)
      by (unfold A; rewrite Hd0; done).
    split; [|rewrite Hj, Hf; done].
    assert (db_head d = A) as HAd by done. clearbody A sd. clear Hd0.
    split; rewrite ?Hj, ?Hf, ?Hsf, ?HAd; cbn [cp_root cp_slot].
    - done.
    - exists sd. by rewrite lookup_singleton.
    - intros r s [<- <-]%lookup_singleton_Some. rewrite Hsa. eauto.
    - intros r s [<- <-]%lookup_singleton_Some. exists [A]. split_and!; try done.
      + intros x ->%elem_of_list_singleton. rewrite lookup_singleton. eauto.
      + intros i x Hx _ Hi. exfalso. unfold root_at in Hx. rewrite Hsa in Hx. cbn in Hx.
        apply lookup_lt_Some in Hx. unfold lenN in Hlen. lia.
    - intros r s [<- <-]%lookup_singleton_Some Hne. done.
    - intros sl r p. rewrite Hlive. 
      rewrite lookup_insert_Some, lookup_empty. intros [[[= <- <-] <-]|[_ ?]]; [|done].
      exists sd. by rewrite lookup_singleton.
    - intros r s [<- <-]%lookup_singleton_Some _. by rewrite Hlive, Hsds, lookup_insert.
    - exists sd. by rewrite lookup_singleton.
    - intros r s [<- <-]%lookup_singleton_Some. rewrite Hsa. cbn. lia.
    - exists sd. by rewrite lookup_singleton.
    - done.
    - exists sd. by rewrite lookup_singleton.
    - exists sd. by rewrite lookup_singleton.
    - intros r h. rewrite Hhd. intros [[<- <-]|[_ ?]]%lookup_insert_Some; [by left|by rewrite lookup_empty in *].
    - done.
  Qed.

  (** *** Import of a block: the two commits of block and state *)
  Lemma db_inv_import A As w d sb p post :
    db_inv A As w d ->
    let b := sb_block sb in let root := root_ b in
    w !! root = None -> w !! b_parent b = Some p -> stf_ p b = Ok post ->
    cp_slot (s_justified post) <= cp_slot (db_just d) ->
    exists d3, import_state E (import_block E d sb) sb (stored_state post b) = Ok d3 /\
      db_inv A As (<[root := stored_state post b]> w) d3 /\
      db_head d3 = db_head d /\ db_just d3 = db_just d /\ db_fin d3 = db_fin d /\
      db_time d3 = db_time d /\ db_gt d3 = db_gt d /\ db_safe d3 = db_safe d /\
      t_live (db_tab d3) = <[(b_slot b, root) := b_parent b]> (t_live (db_tab d)) /\
      (forall r h, t_headers (db_tab d) !! r = Some h -> t_headers (db_tab d3) !! r = Some h) /\
      get_signed_block hb (db_tab d3) root = get_signed_block hb (insert_signed_block hb (db_tab d) root sb) root.
  Proof.
    intros Hi b root Hnone Hpar Hst Hjust.
    destruct (w_chain_facts _ _ _ _ _ _ Hi Hpar) as (Hlenp & Hsep & Hslp & _).
    destruct (stored_facts hs hh hb _ _ _ Hst Hsep Hslp) as (Fh & Fs' & Flt & Fpar & Fhist & Flim & _).
    set (s := stored_state post b) in *.
    destruct (w_slot_ge _ _ _ _ _ _ Hi Hpar) as [Hge _].
    destruct (header_write _ _ _ _ sb Hi) as [Hk Hn]; [fold b; lia|]. fold b root in Hk, Hn.
    set (t2 := insert_signed_block hb (db_tab d) root sb).
    assert (st_inv hs hh t2 [] w) as Hst2.
    { eapply (st_inv_write hs hh hb Hinj _ _ _ sb); [apply Hi|apply insert_headers_row|apply insert_states|apply insert_diffs]. }
    destruct (insert_state_spec hs hh hb t2 [] w b p post Hst2) as (t3 & c3 & Hins & Hst3 & Eh & Eb & Ep & Er & El);
      try done.
    { unfold t2. rewrite insert_headers_row. apply lookup_insert. }
    fold root s in Hins, Hst3.
    assert (t_headers t3 = <[root := header_of hb b]> (t_headers (db_tab d))) as Hh3.
    { rewrite Eh. unfold t2. by rewrite insert_headers_row. }
    assert (t_live t3 = <[(b_slot b, root) := b_parent b]> (t_live (db_tab d))) as Hl3.
    { rewrite El. unfold t2, insert_signed_block. cbn [set_live t_live t_roots]. by rewrite (proj2 (write_other _ _ _)). }
    assert (t_roots t3 = t_roots (db_tab d)) as Hr3.
    { rewrite Er. unfold t2, insert_signed_block. cbn [set_live t_live t_roots]. by rewrite (proj1 (write_other _ _ _)). }
    unfold import_state, import_block. cbn [db_tab with_tab]. fold b root t2. rewrite Hins. cbn [rbind fst].
    eexists. split; [done|]. cbn [db_tab with_tab db_head db_just db_fin db_time db_gt db_safe].
    split; [|split_and!; try done].
    2:{ rewrite Hh3. done. }
    2:{ unfold get_signed_block. by rewrite Eh, Eb, Ep. }
    assert (forall r h, t_headers (db_tab d) !! r = Some h -> t_headers t3 !! r = Some h) as Hk3 by (by rewrite Hh3).
    assert (forall r x, w !! r = Some x -> slot_of t3 r = slot_of (db_tab d) r) as Hslot.
    { intros r x Hw. destruct (w_header _ _ _ _ _ _ Hi Hw) as (Hhx & _).
      by rewrite (slot_of_header _ _ _ Hhx), (slot_of_header _ _ _ (Hk3 _ _ Hhx)). }
    assert (t_headers t3 !! root = Some (header_of hb b)) as Hhr by (rewrite Hh3; apply lookup_insert).
    assert (root <> A) as HrA.
    { intros ->. destruct (di_anchor _ _ _ _ Hi) as (sa & Ha & _). by rewrite Ha in Hnone. }
    assert (forall r, is_Some (w !! r) -> <[root := s]> w !! r = w !! r) as Hw'.
    { intros r [x Hx]. rewrite lookup_insert_ne; [done|]. intros ->. by rewrite Hx in Hnone. }
    split; cbn [db_tab with_tab db_head db_just db_fin db_time db_gt db_safe].
    - eapply st_inv_cache; [exact Hst3|]. intros e He. by apply elem_of_nil in He.
    - destruct (di_anchor _ _ _ _ Hi) as (sa & Ha & Has). exists sa. by rewrite Hw' by eauto.
    - intros r x [[<- <-]|[_ Hx]]%lookup_insert_Some.
      + destruct (di_chain _ _ _ _ Hi _ _ Hpar) as (raw & bs & Hc & ->).
        exists post, (bs ++ [b]). split; [|by eapply stored_seal]. econstructor; [exact Hc|]. by rewrite <- stf_seal.
      + by apply (di_chain _ _ _ _ Hi _ _ Hx).
    - intros r x [[<- <-]|[Hne Hx]]%lookup_insert_Some.
      + destruct (di_path _ _ _ _ Hi _ _ Hpar) as (l & Hp & Hd & Hin & Hroot).
        exists (root :: l). split_and!.
        * eapply path_step; [done|exact Hhr|]. cbn. by eapply path_keep.
        * destruct (path_head _ _ _ _ Hp) as [l' ->].
          intros [|i] r r' h h' H1 H2 Hh1 Hh2.
          -- cbn in H1, H2. simplify_eq. destruct (w_header _ _ _ _ _ _ Hi Hpar) as (Hhp & _ & _).
             rewrite (Hk3 _ _ Hhp) in Hh2. simplify_eq. cbn. lia.
          -- eapply (descending_keep _ _ _ _ _ Hk3 Hp Hd i); [exact H1|exact H2|done|done].
        * intros y [->|Hy]%elem_of_cons; [rewrite lookup_insert; eauto|]. rewrite Hw'; by apply Hin.
        * intros i y Hy Hyz Hyi.
          destruct (root_at_child _ _ _ _ _ Hst Hsep Hslp Hlenp Hy Hyz) as [[Hlt Hy']|[-> ->]].
          -- destruct (Hroot _ _ Hy' Hyz Hyi) as [Hyl Hys]. split; [by right|].
             destruct (Hin _ Hyl) as [sy Hwy]. by rewrite (Hslot _ _ Hwy).
          -- destruct (path_head _ _ _ _ Hp) as [l' ->]. split; [right; left|].
             rewrite (Hslot _ _ Hpar). destruct (w_header _ _ _ _ _ _ Hi Hpar) as (_ & _ & ->). done.
      + destruct (di_path _ _ _ _ Hi _ _ Hx) as (l & Hp & Hd & Hin & Hroot). exists l. split_and!.
        * by eapply path_keep.
        * by eapply descending_keep.
        * intros y Hy. rewrite Hw'; by apply Hin.
        * intros i y Hy Hyz Hyi. destruct (Hroot _ _ Hy Hyz Hyi) as [Hyl Hys]. split; [done|].
          destruct (Hin _ Hyl) as [sy Hwy]. by rewrite (Hslot _ _ Hwy).
    - intros r x [[<- <-]|[Hne Hx]]%lookup_insert_Some HxA.
      + exists p, b, post. rewrite Fh. cbn. rewrite Hw' by eauto. done.
      + destruct (di_link _ _ _ _ Hi _ _ Hx HxA) as (q & b' & post' & Hq & Hq1 & Hq2).
        exists q, b', post'. by rewrite Hw' by eauto.
    - intros sl r q. rewrite Hl3. intros [[[= <- <-] <-]|[_ Hl]]%lookup_insert_Some.
      + exists s. rewrite lookup_insert, Fh. split_and!; done.
      + destruct (di_live _ _ _ _ Hi _ _ _ Hl) as (x & Hx & -> & ->). exists x. by rewrite Hw' by eauto.
    - intros r x [[<- <-]|[Hne Hx]]%lookup_insert_Some Hle; rewrite Hl3.
      + rewrite Fs', Fh. apply lookup_insert.
      + rewrite lookup_insert_ne by congruence. by apply (di_live_all _ _ _ _ Hi).
    - destruct (di_just _ _ _ _ Hi) as (x & Hx & Hs). exists x. by rewrite Hw' by eauto.
    - intros r x [[<- <-]|[Hne Hx]]%lookup_insert_Some; [done|]. by apply (di_just_max _ _ _ _ Hi _ _ Hx).
    - destruct (di_fin _ _ _ _ Hi) as (x & Hx & Hs). exists x. by rewrite Hw' by eauto.
    - apply Hi.
    - rewrite Hw'; apply Hi.
    - rewrite Hw'; apply Hi.
    - intros r h. rewrite Hh3. intros [[<- <-]|[_ Hh]]%lookup_insert_Some; [right; cbn; lia|].
      by apply (di_headers _ _ _ _ Hi) in Hh.
    - destruct (di_head _ _ _ _ Hi) as [x Hx]. destruct (di_path _ _ _ _ Hi _ _ Hx) as (l & Hp & _).
      apply (index_keep (db_tab d) _ _ _ l); try done. apply Hi.
  Qed.

  (** The justified checkpoint of a new block's state is already stored. *)
  Lemma new_justified A As w d b p post :
    db_inv A As w d -> w !! b_parent b = Some p -> stf_ p b = Ok post ->
    cp_slot (db_just d) < cp_slot (s_justified post) ->
    exists s, w !! cp_root (s_justified post) = Some s /\ s_slot s = cp_slot (s_justified post).
  Proof.
    intros Hi Hpar Hst Hlt.
    destruct (w_chain_facts _ _ _ _ _ _ Hi Hpar) as (Hlenp & Hsep & Hslp & _).
    destruct (di_chain _ _ _ _ Hi _ _ Hpar) as (raw & bs & Hc & Hraw).
    assert (chain_ post (bs ++ [b])) as Hcp by (econstructor; [exact Hc|]; rewrite <- stf_seal; by subst).
    destruct (chain_checkpoints _ _ _ _ _ _ _ Hcp) as (_ & _ & _ & HJr & Hzz); [by destruct bs|].
    destruct Hzz as [_ Hz]; [apply Hnz|].
    destruct (db_inv_fin_ge _ _ _ _ Hi) as [_ Hge].
    assert (root_at (stored_state post b) (cp_slot (s_justified post)) = Some (cp_root (s_justified post))) as Hr by done.
    destruct (root_at_child _ _ _ _ _ Hst Hsep Hslp Hlenp Hr Hz) as [[Hlt' Hy]|[Heq ->]].
    - destruct (di_path _ _ _ _ Hi _ _ Hpar) as (l & Hp & Hd & Hin & Hroot).
      destruct (Hroot _ _ Hy Hz) as [Hyl Hys]; [lia|].
      destruct (Hin _ Hyl) as [sy Hwy]. exists sy. split; [done|].
      destruct (w_header _ _ _ _ _ _ Hi Hwy) as (_ & _ & Hx). congruence.
    - exists p. by rewrite Heq.
  Qed.

  (** *** Fork choice *)
  Lemma ghost_any A As w d votes ms :
    db_inv A As w d ->
    exists h wt, compute_lmd_ghost_head (cp_root (db_just d)) (map_to_list (live_chain (db_tab d))) votes ms
        = Some (h, wt) /\
      is_Some (w !! h) /\ descends (live_chain (db_tab d)) h (cp_root (db_just d)) /\
      greedy (live_chain (db_tab d)) (weight wt) ms (cp_root (db_just d)) h.
  Proof.
    intros Hi. destruct (live_just _ _ _ _ Hi) as (p & Hp).
    destruct (di_just _ _ _ _ Hi) as (sj & Hwj & _).
    destruct (ghost_spec (cp_root (db_just d)) (map_to_list (live_chain (db_tab d))) votes ms
                (cp_slot (db_just d)) p) as (h & wt & H1 & _ & H2 & H3).
    - eapply w_nonzero; eauto.
    - apply NoDup_fst_map_to_list.
    - rewrite list_to_map_to_list. by eapply live_zero.
    - rewrite list_to_map_to_list. by eapply live_decreasing.
    - by rewrite list_to_map_to_list.
    - rewrite list_to_map_to_list in H2, H3. exists h, wt. split_and!; try done.
      apply descends_in in H3 as [[[sl q] Hh] _]. destruct (live_w _ _ _ _ _ _ _ Hi Hh) as (s & Hs & _). eauto.
  Qed.

  Lemma ghost_head_spec A As w n :
    db_inv A As w (nd_db n) ->
    exists h, ghost_head n = Ok h /\ is_Some (w !! h) /\
      descends (live_chain (tab n)) h (cp_root (db_just (nd_db n))).
  Proof.
    intros Hi. destruct (ghost_any _ _ _ _ (known_votes n) 0 Hi) as (h & wt & H1 & H2 & H3 & _).
    exists h. unfold ghost_head, tab in *. by rewrite H1.
  Qed.

  Lemma head_finalized_spec A As w d h s :
    db_inv A As w d -> w !! h = Some s ->
    exists o, head_finalized (db_tab d) h = Ok o /\
      (forall f, o = Some f -> f = s_finalized s /\ cp_slot f <= cp_slot (db_just d) /\
         exists sf, w !! cp_root f = Some sf /\ s_slot sf = cp_slot f) /\
      (As <= cp_slot (s_finalized s) -> s_slot s <> 0 -> o = Some (s_finalized s)) /\
      (cp_slot (s_finalized s) < As \/ s_slot s = 0 -> o = None).
  Proof.
    intros Hi Hw. unfold head_finalized. rewrite (w_read _ _ _ _ _ _ Hi Hw). cbn [expect rbind].
    destruct (w_chain_facts _ _ _ _ _ _ Hi Hw) as (_ & _ & _ & _ & Hfj & Hjs & Hcase).
    pose proof (di_just_max _ _ _ _ Hi _ _ Hw) as Hjm.
    assert (s_slot s = 0 -> t_headers (db_tab d) !! cp_root (s_finalized s) = None) as Hgen.
    { intros H0. destruct (di_chain _ _ _ _ Hi _ _ Hw) as (raw & bs & Hc & ->).
      destruct (decide (bs = [])) as [->|Hne].
      - apply chain_nil in Hc as ->. cbn. by eapply zero_header.
      - destruct (exists_last Hne) as (bs' & b & ->). apply chain_snoc_inv in Hc as (s0 & _ & Hst).
        apply C02_block_linkage_pf in Hst as (Hl & _ & _ & _ & Hl5 & _). cbn in H0. lia. }
    assert (cp_slot (s_finalized s) < As -> t_headers (db_tab d) !! cp_root (s_finalized s) = None) as Hold.
    { intros Hlt. destruct Hcase as [H0|(_ & _ & _ & _ & hx & Hx & Hxs)]; [by apply Hgen|].
      destruct (t_headers (db_tab d) !! cp_root (s_finalized s)) as [h'|] eqn:Hh'; [|done]. exfalso.
      pose proof (si_hash _ _ _ _ _ (di_st _ _ _ _ Hi) _ _ Hh') as Hhash. rewrite <- Hx in Hhash.
      apply Hinj in Hhash as ->. destruct (di_headers _ _ _ _ Hi _ _ Hh') as [HA|HA]; [|lia].
      destruct (di_anchor _ _ _ _ Hi) as (sa & Ha & Has). rewrite HA in Hh'.
      destruct (w_header _ _ _ _ _ _ Hi Ha) as (Hha & Hsa & _). rewrite Hha in Hh'. simplify_eq. lia. }
    assert (As <= cp_slot (s_finalized s) -> s_slot s <> 0 ->
      exists sf, w !! cp_root (s_finalized s) = Some sf /\ s_slot sf = cp_slot (s_finalized s)) as Hnew.
    { intros Hge Hn0. destruct Hcase as [H0|(_ & Hr & _ & Hz & _)]; [done|].
      destruct (di_path _ _ _ _ Hi _ _ Hw) as (l & Hp & Hd & Hin & Hroot).
      destruct (Hroot _ _ Hr Hz Hge) as [Hyl Hys]. destruct (Hin _ Hyl) as [sy Hwy]. exists sy. split; [done|].
      destruct (w_header _ _ _ _ _ _ Hi Hwy) as (_ & _ & Hx). congruence. }
    eexists. split; [done|]. unfold get_header. split_and!.
    - intros f Hf. destruct (t_headers (db_tab d) !! cp_root (s_finalized s)) as [h'|] eqn:Hh'; [|done].
      injection Hf as <-. split; [done|]. split; [lia|]. apply Hnew.
      + destruct (decide (As <= cp_slot (s_finalized s))); [done|]. discriminate Hold. lia.
      + intros H0. by discriminate Hgen.
    - intros Hge Hn0. destruct (Hnew Hge Hn0) as (sf & Hsf & _).
      destruct (w_header _ _ _ _ _ _ Hi Hsf) as (Hh & _). by rewrite Hh.
    - intros [Hlt|H0]; [by rewrite Hold|by rewrite Hgen].
  Qed.

  (** The head descends from the justified block. *)
  Definition head_ok (d : Db) : Prop :=
    descends (live_chain (db_tab d)) (db_head d) (cp_root (db_just d)).

  (** Descent from the justified block does not depend on how much was pruned. *)
  Lemma descends_transfer A As w d w' d' h :
    db_inv A As w d -> db_inv A As w' d' ->
    (forall r x, t_headers (db_tab d) !! r = Some x -> t_headers (db_tab d') !! r = Some x) ->
    (forall r s, w !! r = Some s -> w' !! r = Some s) ->
    db_just d' = db_just d ->
    descends (live_chain (db_tab d)) h (cp_root (db_just d)) ->
    descends (live_chain (db_tab d')) h (cp_root (db_just d')).
  Proof.
    intros Hi Hi' Hk Hw Hj Hd. destruct (descends_path _ _ _ _ _ _ Hi Hd) as (l & Hp & Hdl & Hin).
    destruct (di_just _ _ _ _ Hi') as (sj & Hwj & Hsj).
    apply (path_descends A As w' d' h l _ sj Hi'); try done.
    - by eapply path_keep.
    - by eapply descending_keep.
    - intros x Hx. pose proof Hp as Hp0. apply descends_in in Hd as [[[sl q] Hh] _].
      destruct (live_w _ _ _ _ _ _ _ Hi Hh) as (s & Hs & _).
      destruct (di_path _ _ _ _ Hi _ _ Hs) as (l' & Hp' & _ & Hall & _).
      rewrite (path_det _ _ _ _ _ Hp Hp') in Hx. destruct (Hall _ Hx) as [sx Hsx]. eauto.
    - by rewrite Hj.
    - lia.
  Qed.

  (** *** Memory *)
  Definition mem_inv (n : Node) : Prop :=
    pool_ok (e_data E) (nd_new n) /\ pool_ok (e_data E) (nd_known n) /\ sigs_ok (e_data E) (nd_gossip n).
  Lemma mem_start d : mem_inv (start_node d).
  Proof. split_and!; [apply pool_new_ok|apply pool_new_ok|apply sigs_new_ok]. Qed.

  Lemma prune_pools_spec n adv :
    mem_inv n -> exists n', prune_pools n adv = Ok n' /\ mem_inv n' /\
      nd_db n' = nd_db n /\ nd_votes n' = nd_votes n.
  Proof.
    intros (H1 & H2 & H3). destruct adv as [f|]; cbn; [|by exists n].
    destruct (prune_sigs_spec _ f _ H3) as (g & k & -> & Hg & _). cbn.
    destruct (prune_pool_spec _ f _ H1) as (b1 & k1 & -> & Hb1 & _). cbn.
    destruct (prune_pool_spec _ f _ H2) as (b2 & k2 & -> & Hb2 & _). cbn.
    eexists. split; [done|]. by split.
  Qed.

  (** What an update of the head changes. *)
  Record head_update (d d' : Db) (h : H256) : Prop := {
    hu_head : db_head d' = h;
    hu_just : db_just d' = db_just d;
    hu_time : db_time d' = db_time d;
    hu_gt : db_gt d' = db_gt d;
    hu_safe : db_safe d' = db_safe d;
    hu_headers : t_headers (db_tab d') = t_headers (db_tab d);
    hu_bodies : t_bodies (db_tab d') = t_bodies (db_tab d);
    hu_proofs : t_proofs (db_tab d') = t_proofs (db_tab d);
    hu_states : t_states (db_tab d') = t_states (db_tab d);
    hu_diffs : t_diffs (db_tab d') = t_diffs (db_tab d);
    hu_live : forall k p, t_live (db_tab d') !! k = Some p <->
      t_live (db_tab d) !! k = Some p /\
      (cp_slot (db_fin d) < cp_slot (db_fin d') -> cp_slot (db_fin d') <= k.1) }.

  Lemma prune_after_facts A As w d f :
    db_inv A As w d -> (forall x, f = Some x -> x <= cp_slot (db_just d)) ->
    db_inv A As w (prune_after d f).
  Proof. intros Hi Hf. destruct f as [x|]; cbn; [|done]. apply db_inv_prune; [done|]. by apply Hf. Qed.

  Lemma update_head_spec A As w n :
    db_inv A As w (nd_db n) -> mem_inv n ->
    exists n' h s o d1, update_head n = Ok n' /\ ghost_head n = Ok h /\ w !! h = Some s /\
      head_finalized (tab n) h = Ok o /\ apply_checkpoints (nd_db n) h None o = Ok d1 /\
      nd_db n' = prune_after d1 (finalization_advanced (nd_db n) o) /\
      db_inv A As w d1 /\ db_inv A As w (nd_db n') /\ mem_inv n' /\ head_ok (nd_db n') /\
      head_update (nd_db n) (nd_db n') h /\ nd_votes n' = nd_votes n /\
      db_fin (nd_db n') = default (db_fin (nd_db n)) o.
  Proof.
    intros Hi Hm. destruct (ghost_head_spec _ _ _ _ Hi) as (h & Hg & [s Hs] & Hdesc).
    destruct (head_finalized_spec _ _ _ _ _ _ Hi Hs) as (o & Ho & Hof & _).
    destruct (db_inv_apply _ _ _ _ h None o Hi) as
      (d1 & Hap & Hi1 & E1 & E2 & E3 & E4 & E5 & E6 & E7 & E8 & E9 & E10 & E11 & E12); [eauto|done| |].
    { intros f Hf. destruct (Hof f Hf) as (_ & ? & ?). done. }
    cbn [default] in E2.
    set (adv := finalization_advanced (nd_db n) o) in *.
    assert (db_inv A As w (prune_after d1 adv)) as Hi2.
    { apply prune_after_facts; [done|]. intros x Hx. unfold adv, finalization_advanced in Hx.
      destruct o as [f|]; [|done]. destruct (_ <? _); [|done]. injection Hx as <-.
      destruct (Hof f eq_refl) as (_ & ? & _). cbn in E2. by rewrite E2. }
    destruct (prune_pools_spec (with_db n (prune_after d1 adv)) adv Hm) as (n' & Hpp & Hm' & Hdb' & Hv').
    exists n', h, s, o, d1. cbn [nd_db with_db nd_votes] in Hdb', Hv'. fold adv.
    assert (update_head n = Ok n') as Hu.
    { unfold update_head. rewrite Hg. cbn [rbind]. unfold tab. rewrite Ho. cbn [rbind].
      unfold update_checkpoints. fold adv. rewrite Hap. cbn [rbind]. by rewrite Hpp. }
    assert (head_update (nd_db n) (prune_after d1 adv) h /\
            db_fin (prune_after d1 adv) = default (db_fin (nd_db n)) o) as [Hhu Hfin].
    { split; [|unfold adv, finalization_advanced; destruct o as [f|]; cbn; [destruct (_ <? _)|]; cbn; done].
      assert (db_fin (prune_after d1 adv) = default (db_fin (nd_db n)) o) as Hf.
      { unfold adv, finalization_advanced; destruct o as [f|]; cbn; [destruct (_ <? _)|]; cbn; done. }
      split; try (destruct adv; cbn; congruence).
      intros k p. rewrite Hf. unfold adv, finalization_advanced. destruct o as [f|]; cbn [from_option]; unfold id.
      - destruct (N.ltb_spec (cp_slot (db_fin (nd_db n))) (cp_slot f)) as [Hlt|Hle]; cbn [prune_after].
        + cbn [with_tab db_tab prune_live_chain set_live t_live]. rewrite map_filter_lookup_Some, E7. cbn.
          split; intros [? H]; split; try done; [intros _; lia|]. specialize (H Hlt). lia.
        + rewrite E7. split; [|by intros [? _]]. intros ?. split; [done|]. lia.
      - cbn. rewrite E7. split; [|by intros [? _]]. intros ?. split; [done|]. lia. }
    split_and!; try done; rewrite ?Hdb'; try done.
    unfold head_ok. rewrite (hu_head _ _ _ Hhu).
    eapply (descends_transfer A As w (nd_db n) w); try done.
    - by rewrite (hu_headers _ _ _ Hhu).
    - apply (hu_just _ _ _ Hhu).
  Qed.

  (** *** Steps *)
  Definition node_inv (A : H256) (As : N) (w : gmap H256 State) (n : Node) : Prop :=
    db_inv A As w (nd_db n) /\ mem_inv n.

  (** Nodes started from genesis: what is finalized is what the head's state says. *)
  Definition fin_inv (As : N) (w : gmap H256 State) (d : Db) : Prop :=
    As = 0 -> forall s, w !! db_head d = Some s -> s_slot s <> 0 -> db_fin d = s_finalized s.
  Lemma fin_inv_keep A As w w' d d' :
    db_inv A As w d -> (forall r s, w !! r = Some s -> w' !! r = Some s) ->
    db_head d' = db_head d -> db_fin d' = db_fin d -> fin_inv As w d -> fin_inv As w' d'.
  Proof.
    intros Hi Hw E1 E2 H H0 s Hs Hn. rewrite E1 in Hs. rewrite E2.
    destruct (di_head _ _ _ _ Hi) as [s' Hs']. pose proof (Hw _ _ Hs') as Hs2.
    assert (s = s') as -> by congruence. by apply H.
  Qed.

  Record step_ok (A : H256) (As : N) (w w' : gmap H256 State) (n n' : Node) : Prop := {
    so_inv : node_inv A As w' n';
    so_w : forall r s, w !! r = Some s -> w' !! r = Some s;
    so_just : cp_slot (db_just (nd_db n)) <= cp_slot (db_just (nd_db n'));
    so_headers : forall r h, t_headers (tab n) !! r = Some h -> t_headers (tab n') !! r = Some h;
    so_time : db_time (nd_db n) <= db_time (nd_db n');
    so_gt : db_gt (nd_db n') = db_gt (nd_db n);
    so_head : head_ok (nd_db n) -> head_ok (nd_db n');
    so_fin : fin_inv As w (nd_db n) -> fin_inv As w' (nd_db n') }.

  Lemma step_refl A As w n : node_inv A As w n -> step_ok A As w w n n.
  Proof. intros H. split; done || lia. Qed.
  Lemma step_trans A As w w1 w2 n n1 n2 :
    step_ok A As w w1 n n1 -> step_ok A As w1 w2 n1 n2 -> step_ok A As w w2 n n2.
  Proof.
    intros [H1 H2 H3 H4 H5 H6 H7 H8] [G1 G2 G3 G4 G5 G6 G7 G8]. split; eauto; try lia.
  Qed.

  (** Only memory changes. *)
  Lemma step_mem A As w n n' :
    node_inv A As w n -> mem_inv n' -> nd_db n' = nd_db n -> step_ok A As w w n n'.
  Proof.
    intros [H1 H2] Hm Hd. unfold node_inv. split; unfold node_inv, tab; rewrite ?Hd; try done; lia.
  Qed.

  Lemma update_head_fin A As w n n' h s o :
    db_inv A As w (nd_db n) -> w !! h = Some s -> head_finalized (tab n) h = Ok o ->
    head_update (nd_db n) (nd_db n') h -> db_fin (nd_db n') = default (db_fin (nd_db n)) o ->
    fin_inv As w (nd_db n').
  Proof.
    intros Hi Hs Ho Hhu Hf H0 s' Hs' Hn. rewrite (hu_head _ _ _ Hhu) in Hs'. assert (s' = s) as -> by congruence.
    destruct (head_finalized_spec _ _ _ _ _ _ Hi Hs) as (o' & Ho' & _ & Hsome & _).
    assert (o' = o) as -> by (unfold tab in Ho; congruence).
    rewrite (Hsome ltac:(lia) Hn) in Hf. by rewrite Hf.
  Qed.

  Lemma update_head_step A As w n :
    node_inv A As w n -> exists n', update_head n = Ok n' /\ step_ok A As w w n n' /\ head_ok (nd_db n') /\
      db_time (nd_db n') = db_time (nd_db n).
  Proof.
    intros [Hi Hm]. destruct (update_head_spec _ _ _ _ Hi Hm)
      as (n' & h & s & o & d1 & Hu & Hg & Hs & Ho & Hap & Hdb & Hi1 & Hi2 & Hm' & Hok & Hhu & Hv & Hf).
    exists n'. split; [done|]. split; [|split; [done|apply Hhu]]. split; try done.
    - rewrite (hu_just _ _ _ Hhu). lia.
    - unfold tab. by rewrite (hu_headers _ _ _ Hhu).
    - rewrite (hu_time _ _ _ Hhu). lia.
    - apply Hhu.
    - intros _. by apply (update_head_fin _ _ _ n _ _ _ _ Hi Hs Ho Hhu Hf).
  Qed.

  Lemma push_batch_ok b l :
    pool_ok (e_data E) b -> exists b', payload_push_batch (e_data E) b l = Ok b' /\ pool_ok (e_data E) b'.
  Proof.
    revert b. induction l as [|[a p] l IH]; intros b Hb; cbn; [eauto|].
    destruct (push_spec _ b a p Hb) as (b1 & -> & Hb1 & _). cbn. by apply IH.
  Qed.
  Lemma promote_ok nw kn :
    pool_ok (e_data E) nw -> pool_ok (e_data E) kn ->
    exists nw' kn', payload_promote (e_data E) nw kn = Ok (nw', kn') /\
      pool_ok (e_data E) nw' /\ pool_ok (e_data E) kn'.
  Proof.
    intros Hn Hk. unfold payload_promote. destruct (payload_drain nw) as [nw' l] eqn:Hd.
    destruct (drain_pool_spec _ nw Hn) as [H1 _]. rewrite Hd in H1. cbn in H1. subst nw'.
    destruct (push_batch_ok kn l Hk) as (kn' & -> & Hk'). cbn. eexists _, _. split; [done|].
    split; [apply pool_new_ok|done].
  Qed.

  Lemma accept_step A As w n :
    node_inv A As w n -> exists n', accept_new_attestations E n = Ok n' /\ step_ok A As w w n n' /\
      head_ok (nd_db n') /\ db_time (nd_db n') = db_time (nd_db n).
  Proof.
    intros [Hi (H1 & H2 & H3)]. unfold accept_new_attestations.
    destruct (promote_ok _ _ H1 H2) as (nw & kn & -> & Hn & Hk). cbn [rbind fst snd].
    set (n1 := mkNode _ _ _ _ _).
    assert (node_inv A As w n1) as Hn1 by (split; [done|]; by split).
    destruct (update_head_step _ _ _ n1 Hn1) as (n' & Hu & Hst & Hok & Ht).
    exists n'. split; [done|]. split; [|done].
    eapply step_trans; [|exact Hst]. apply step_mem; [by split|apply Hn1|done].
  Qed.

  Lemma time_step A As w n t :
    node_inv A As w n -> db_time (nd_db n) <= t -> step_ok A As w w n (with_db n (set_time (nd_db n) t)).
  Proof.
    intros [Hi Hm] Ht. split; try done. split; [|done]. by apply db_inv_time.
  Qed.

  Lemma safe_target_step A As w n :
    node_inv A As w n -> exists n', update_safe_target n = Ok n' /\ step_ok A As w w n n' /\
      db_time (nd_db n') = db_time (nd_db n).
  Proof.
    intros [Hi Hm]. unfold update_safe_target. destruct (di_head _ _ _ _ Hi) as [s Hs].
    unfold tab. rewrite (w_read _ _ _ _ _ _ Hi Hs). cbn [expect rbind]. unfold safe_target.
    destruct (ghost_any _ _ _ _ (new_votes n) (safe_target_score (lenN (s_validators s))) Hi)
      as (h & wt & -> & Hh & _). cbn.
    eexists. split; [done|]. split; [|done].
    split; try done; cbn; try lia. split; [|done]. by apply db_inv_safe.
  Qed.

  Lemma tick_once_step A As w n hp last :
    node_inv A As w n -> exists n', tick_once E n hp last = Ok n' /\ step_ok A As w w n n' /\
      db_time (nd_db n') = db_time (nd_db n) + 1.
  Proof.
    intros Hi. unfold tick_once. set (n1 := with_db _ _).
    assert (step_ok A As w w n n1) as H1 by (apply time_step; [done|lia]).
    assert (db_time (nd_db n1) = db_time (nd_db n) + 1) as Ht1 by done.
    pose proof (so_inv _ _ _ _ _ _ H1) as Hi1.
    assert (exists n', Ok n1 = Ok (E := unit) n' /\ step_ok A As w w n n' /\ db_time (nd_db n') = db_time (nd_db n) + 1) as Hskip
      by (by exists n1).
    assert (exists n', accept_new_attestations E n1 = Ok n' /\ step_ok A As w w n n' /\
      db_time (nd_db n') = db_time (nd_db n) + 1) as Hacc.
    { destruct (accept_step _ _ _ _ Hi1) as (n' & Hu & Hs & _ & Ht). exists n'. split; [done|].
      split; [by eapply step_trans|congruence]. }
    destruct (interval_of _); try done.
    - by destruct (hp && last).
    - destruct (safe_target_step _ _ _ _ Hi1) as (n' & Hu & Hs & Ht). exists n'. split; [done|].
      split; [by eapply step_trans|congruence].
  Qed.

  Lemma tick_loop_step A As w k n hp :
    node_inv A As w n -> exists n', tick_loop E k n hp = Ok n' /\ step_ok A As w w n n' /\
      db_time (nd_db n') = db_time (nd_db n) + N.of_nat k.
  Proof.
    revert n. induction k as [|k IH]; intros n Hi; cbn [tick_loop].
    - exists n. split; [done|]. split; [by apply step_refl|lia].
    - destruct (tick_once_step _ _ _ _ hp (match k with O => true | _ => false end) Hi) as (n1 & -> & H1 & Ht1).
      cbn [rbind]. destruct (IH n1 (so_inv _ _ _ _ _ _ H1)) as (n' & -> & H2 & Ht2).
      exists n'. split; [done|]. split; [by eapply step_trans|lia].
  Qed.

  Lemma on_tick_step A As w n ts hp :
    node_inv A As w n -> exists n', on_tick E n ts hp = Ok n' /\ step_ok A As w w n n' /\
      db_time (nd_db n') = N.max (db_time (nd_db n)) ((ts - db_gt (nd_db n) * 1000) / 800).
  Proof.
    intros Hi. unfold on_tick. change MILLISECONDS_PER_INTERVAL with 800. change INTERVALS_PER_SLOT with 5.
    set (time := (ts - db_gt (nd_db n) * 1000) / 800).
    set (n1 := if 5 <? time - db_time (nd_db n) then _ else n).
    assert (step_ok A As w w n n1 /\ db_time (nd_db n1) <= N.max (db_time (nd_db n)) time) as [H1 Ht1].
    { unfold n1. destruct (N.ltb_spec 5 (time - db_time (nd_db n))).
      - split; [apply time_step; [done|lia]|]. cbn. lia.
      - split; [by apply step_refl|lia]. }
    destruct (tick_loop_step _ _ _ (N.to_nat (time - db_time (nd_db n1))) n1 hp (so_inv _ _ _ _ _ _ H1)) as (n' & -> & H2 & Ht2).
    exists n'. split; [done|]. split; [by eapply step_trans|].
    pose proof (so_time _ _ _ _ _ _ H1). lia.
  Qed.

  Lemma payload_step A As w n a p :
    node_inv A As w n -> exists n', insert_new_aggregated_payload E n a p = Ok n' /\ step_ok A As w w n n' /\
      nd_db n' = nd_db n /\ nd_gossip n' = nd_gossip n.
  Proof.
    intros [Hi (H1 & H2 & H3)]. unfold insert_new_aggregated_payload.
    destruct (push_spec _ _ a p H1) as (b & -> & Hb & _). cbn. eexists. split; [done|].
    split; [|done]. by apply step_mem.
  Qed.
  Lemma batch_step A As w n l :
    node_inv A As w n -> exists n', insert_new_batch E n l = Ok n' /\ step_ok A As w w n n' /\
      nd_db n' = nd_db n.
  Proof.
    revert n. induction l as [|[a p] l IH]; intros n Hi; cbn [insert_new_batch].
    - exists n. split; [done|]. split; [by apply step_refl|done].
    - destruct (payload_step _ _ _ _ a p Hi) as (n1 & -> & H1 & E1 & _). cbn [rbind].
      destruct (IH n1 (so_inv _ _ _ _ _ _ H1)) as (n' & -> & H2 & E2). exists n'. split; [done|].
      split; [by eapply step_trans|congruence].
  Qed.

  Lemma attestation_step A As w n sa agg n' :
    node_inv A As w n -> on_gossip_attestation E n sa agg = Ok n' ->
    step_ok A As w w n n' /\ nd_db n' = nd_db n.
  Proof.
    intros [Hi (H1 & H2 & H3)] H. unfold on_gossip_attestation in H.
    apply rbind_Ok in H as (_ & _ & H). apply rbind_Ok in H as (o & _ & H).
    destruct o as [ts|]; [|done]. destruct (getN _ _) as [v|]; [|done].
    destruct (negb (e_key_ok E _)); [done|]. destruct (two32 <=? _); [done|].
    destruct (negb (e_sig_ok E _)); [done|]. destruct (negb (e_sig_valid E _ _ _ _)); [done|].
    destruct agg.
    - destruct (insert_spec (e_data E) (nd_gossip n) (sa_data sa) (sa_validator sa) (sa_sig sa) H3) as (g & Hg & Hg' & _).
      rewrite Hg in H. cbn in H. injection H as <-. split; [|done]. by apply step_mem.
    - injection H as <-. split; [|done]. apply step_refl. by split.
  Qed.

  Lemma aggregate_step A As w n sg n' :
    node_inv A As w n -> on_gossip_aggregated_attestation E n sg = Ok n' ->
    step_ok A As w w n n' /\ nd_db n' = nd_db n.
  Proof.
    intros Hn H. unfold on_gossip_aggregated_attestation in H.
    apply rbind_Ok in H as (_ & _ & H). apply rbind_Ok in H as (o & _ & H).
    destruct o as [ts|]; [|done]. destruct (validator_indices _) as [|v l]; [done|].
    destruct (att_keys _ _) as [keys|]; [|done].
    destruct (negb _); [done|]. destruct (two32 <=? _); [done|]. destruct (negb _); [done|].
    apply expect_Ok in H. destruct (payload_step _ _ _ _ (sg_data sg) (sg_proof sg) Hn) as (n1 & H1 & H2 & H3 & _).
    rewrite H1 in H. injection H as <-. done.
  Qed.

  (** What passing the checks means. *)
  Lemma check_block_spec A As w d sb o :
    db_inv A As w d -> check_block E d sb = Ok o ->
    let b := sb_block sb in
    (o = None /\ is_Some (w !! root_ b)) \/
    (exists p post, w !! root_ b = None /\ w !! b_parent b = Some p /\ stf_ p b = Ok post /\
       o = Some (stored_state post b)).
  Proof.
    intros Hi H b. unfold check_block in H. fold b in H.
    destruct (has_state (db_tab d) (root_ b)) eqn:Hh.
    { injection H as <-. left. split; [done|]. rewrite (has_state_spec _ _ _ _ _ (root_ b) (di_st _ _ _ _ Hi)) in Hh.
      by apply bool_decide_eq_true in Hh. }
    right. rewrite (has_state_spec _ _ _ _ _ (root_ b) (di_st _ _ _ _ Hi)) in Hh. apply bool_decide_eq_false in Hh.
    apply eq_None_not_Some in Hh.
    destruct (w !! b_parent b) as [p|] eqn:Hp.
    2:{ rewrite (w_read_none _ _ _ _ _ Hi Hp) in H. done. }
    rewrite (w_read _ _ _ _ _ _ Hi Hp) in H. cbn [expect rbind] in H.
    destruct (HISTORICAL_ROOTS_LIMIT <? _); [done|]. destruct (current_slot d + 1 <? _); [done|].
    destruct (has_duplicate_data _); [done|]. destruct (MAX_ATTESTATIONS_DATA <? _); [done|].
    apply rbind_Ok in H as (_ & _ & H).
    destruct (stf_ p b) as [post|e|] eqn:Hst; [|done..]. injection H as <-.
    exists p, post. done.
  Qed.

  (** The commits of an import. *)
  Lemma import_spec A As w n sb p post :
    node_inv A As w n ->
    let b := sb_block sb in let root := root_ b in
    w !! root = None -> w !! b_parent b = Some p -> stf_ p b = Ok post ->
    let s := stored_state post b in
    let w' := <[root := s]> w in
    exists d1 d3 n' h o d4,
      import_justified (nd_db n) s = Ok d1 /\ db_inv A As w d1 /\
      db_just d1 = (if cp_slot (db_just (nd_db n)) <? cp_slot (s_justified s) then s_justified s else db_just (nd_db n)) /\
      db_head d1 = db_head (nd_db n) /\ db_fin d1 = db_fin (nd_db n) /\
      import_state E (import_block E d1 sb) sb s = Ok d3 /\ db_inv A As w' d3 /\
      let n3 := mkNode d3 (record_block_votes E (nd_votes n) (b_atts b)) (nd_new n) (nd_known n) (nd_gossip n) in
      update_head n3 = Ok n' /\ step_ok A As w w' n n' /\ head_ok (nd_db n') /\
      ghost_head n3 = Ok h /\ head_finalized (tab n3) h = Ok o /\ apply_checkpoints d3 h None o = Ok d4 /\
      db_inv A As w' d4 /\ nd_db n' = prune_after d4 (finalization_advanced d3 o) /\
      head_update d3 (nd_db n') h /\ nd_votes n' = nd_votes n3 /\
      t_live (db_tab d3) = <[(b_slot b, root) := b_parent b]> (t_live (tab n)) /\
      get_signed_block hb (db_tab d3) root = get_signed_block hb (insert_signed_block hb (db_tab d1) root sb) root /\
      db_just d3 = db_just d1 /\ db_fin d3 = db_fin d1.
  Proof.
    intros [Hi Hm] b root Hnone Hpar Hst s w'.
    assert (exists d1, import_justified (nd_db n) s = Ok d1 /\ db_inv A As w d1 /\
      db_just d1 = (if cp_slot (db_just (nd_db n)) <? cp_slot (s_justified s) then s_justified s else db_just (nd_db n)) /\
      cp_slot (db_just (nd_db n)) <= cp_slot (db_just d1) /\ cp_slot (s_justified s) <= cp_slot (db_just d1) /\
      db_head d1 = db_head (nd_db n) /\ db_fin d1 = db_fin (nd_db n) /\ db_time d1 = db_time (nd_db n) /\
      db_gt d1 = db_gt (nd_db n) /\ t_live (db_tab d1) = t_live (tab n) /\ t_headers (db_tab d1) = t_headers (tab n))
      as (d1 & Hj1 & Hi1 & Hj & Hjm & Hjs & E1 & E2 & E3 & E4 & E5 & E6).
    { unfold import_justified.
      destruct (N.ltb_spec (cp_slot (db_just (nd_db n))) (cp_slot (s_justified s))) as [Hlt|Hle].
      - destruct (db_inv_apply _ _ _ _ (db_head (nd_db n)) (Some (s_justified s)) None Hi) as
          (d1 & Hap & Hi1 & F1 & F2 & F3 & F4 & F5 & F6 & F7 & F8 & _); [apply Hi| |done|].
        { intros j Hj0. assert (s_justified s = j) as <- by congruence. clear Hj0. split; [lia|]. by apply (new_justified _ _ _ _ _ _ _ Hi Hpar Hst). }
        exists d1. change (default (db_just (nd_db n)) (Some (s_justified s))) with (s_justified s) in F2. rewrite F2. split_and!; try done. lia.
      - exists (nd_db n). split_and!; try done; lia. }
    destruct (db_inv_import _ _ _ _ sb _ _ Hi1 Hnone Hpar Hst) as
      (d3 & Him & Hi3 & G1 & G2 & G3 & G4 & G5 & G6 & G7 & G8 & G9); [done|].
    set (n3 := mkNode d3 (record_block_votes E (nd_votes n) (b_atts b)) (nd_new n) (nd_known n) (nd_gossip n)).
    destruct (update_head_spec A As w' n3 Hi3 Hm) as
      (n' & h & sh & o & d4 & Hu & Hg & Hs & Ho & Hap & Hdb & Hi4 & Hi5 & Hm' & Hok & Hhu & Hv & Hf).
    exists d1, d3, n', h, o, d4. fold s in Him. cbn zeta. fold n3.
    assert (step_ok A As w w' n n') as Hstep.
    { split; try done.
      - intros r x Hx. unfold w'. rewrite lookup_insert_ne; [done|]. intros <-. by rewrite Hnone in Hx.
      - rewrite (hu_just _ _ _ Hhu). cbn. rewrite G2. done.
      - intros r x Hx. unfold tab. rewrite (hu_headers _ _ _ Hhu). cbn. apply G8. by rewrite E6.
      - rewrite (hu_time _ _ _ Hhu). cbn. rewrite G4, E3. lia.
      - rewrite (hu_gt _ _ _ Hhu). cbn. by rewrite G5, E4.
      - intros _. by apply (update_head_fin _ _ _ n3 _ _ _ _ Hi3 Hs Ho Hhu Hf). }
    split_and!; try done. by rewrite G7, E5.
  Qed.

  Lemma on_block_step A As w n sb n' :
    node_inv A As w n -> on_block E n sb = Ok n' ->
    exists w', step_ok A As w w' n n' /\ is_Some (w' !! root_ (sb_block sb)).
  Proof.
    intros Hn H. unfold on_block in H. apply rbind_Ok in H as (o & Hc & H).
    destruct (check_block_spec _ _ _ _ _ _ (proj1 Hn) Hc) as [[-> Hr]|(p & post & Hnone & Hpar & Hst & ->)].
    - injection H as <-. exists w. split; [by apply step_refl|done].
    - destruct (import_spec _ _ _ _ sb _ _ Hn Hnone Hpar Hst) as
        (d1 & d3 & n1 & h & o & d4 & H1 & _ & _ & _ & _ & H2 & _ & H3 & H4 & _).
      rewrite H1 in H. cbn [expect rbind] in H. rewrite H2 in H. cbn [expect rbind] in H. rewrite H3 in H.
      cbn [expect] in H. injection H as <-. eexists. split; [exact H4|]. rewrite lookup_insert. eauto.
  Qed.

  (** Events other than a block import leave the stored states. *)
  Lemma node_step_same A As w n e n' :
    node_inv A As w n -> node_step E n e = Ok n' -> (forall sb, e <> ev_block sb) -> step_ok A As w w n n'.
  Proof.
    intros Hn H Hne. destruct e as [sb|sb|ts hp|sa agg|sg|l keys|slot| |]; cbn [node_step] in H.
    - by destruct (Hne sb).
    - unfold pends in H.
      destruct (N.ltb_spec (cp_slot (db_fin (nd_db n))) (b_slot (sb_block sb))) as [Hlt|Hle]; cbn [andb] in H;
        [|injection H as <-; by apply step_refl].
      destruct (saturating_mul (b_slot (sb_block sb)) INTERVALS_PER_SLOT <=? db_time (nd_db n) + GOSSIP_DISPARITY_INTERVALS);
        cbn [andb] in H; [|injection H as <-; by apply step_refl].
      destruct (negb (has_state (tab n) (b_parent (sb_block sb)))); [|injection H as <-; by apply step_refl].
      apply Ok_inj in H as <-.
      pose proof (db_inv_pending _ _ _ _ sb (proj1 Hn) Hlt) as Hi'.
      assert (forall r h, t_headers (tab n) !! r = Some h ->
        t_headers (insert_pending_block hb (tab n) (root_ (sb_block sb)) sb) !! r = Some h) as Hk.
      { intros r h Hh. unfold insert_pending_block. rewrite write_headers_row.
        destruct (db_inv_fin_ge _ _ _ _ (proj1 Hn)) as [Hge _].
        apply (proj1 (header_write _ _ _ _ sb (proj1 Hn) ltac:(lia)) _ _ Hh). }
      split; try done; cbn [nd_db with_db db_just with_tab db_time]; try lia.
      + split; [done|apply Hn].
      + intros Hok. unfold head_ok in *. cbn [nd_db with_db db_just with_tab db_head].
        apply (descends_transfer A As w (nd_db n) w _ _ (proj1 Hn) Hi' Hk); done.
    - destruct (on_tick_step _ _ _ _ ts hp Hn) as (n1 & Ht & Hs & _). rewrite Ht in H. injection H as <-. done.
    - apply keep_Ok in H as [H|[_ ->]]; [|by apply step_refl].
      by apply (attestation_step _ _ _ _ _ _ _ Hn H).
    - apply keep_Ok in H as [H|[_ ->]]; [|by apply step_refl].
      by apply (aggregate_step _ _ _ _ _ _ Hn H).
    - destruct (batch_step _ _ _ _ l Hn) as (n1 & Hb & Hs & Hd). rewrite Hb in H. cbn [rbind] in H.
      pose proof (so_inv _ _ _ _ _ _ Hs) as (Hi1 & M1 & M2 & M3).
      destruct (delete_spec (e_data E) (nd_gossip n1) keys M3) as (g & Hg & Hg' & _). rewrite Hg in H. cbn in H.
      injection H as <-. eapply step_trans; [exact Hs|]. apply step_mem; done.
    - apply rbind_Ok in H as ([n2 h] & H & Heq). injection Heq as <-. cbn [fst].
      unfold get_proposal_head in H. apply rbind_Ok in H as (n1 & H1 & H). apply rbind_Ok in H as (n2' & H2 & H).
      injection H as <- <-.
      destruct (on_tick_step _ _ _ _ (db_gt (nd_db n) * 1000 + slot * MILLISECONDS_PER_SLOT) true Hn) as (n1' & Ht & Hs & _).
      rewrite Ht in H1. injection H1 as <-.
      destruct (accept_step _ _ _ _ (so_inv _ _ _ _ _ _ Hs)) as (n2'' & Ha & Hs2 & _). rewrite Ha in H2.
      injection H2 as <-. by eapply step_trans.
    - apply rbind_Ok in H as (d & H1 & H). injection H as <-.
      destruct (db_inv_prune_old _ _ _ _ (proj1 Hn)) as (d' & Hp & Hi' & P1 & P2 & P3 & P4 & P5 & P6).
      rewrite Hp in H1. injection H1 as <-. split; try done; cbn [nd_db with_db tab].
      + split; [done|apply Hn].
      + rewrite P2. lia.
      + unfold tab. cbn. by rewrite P6.
      + rewrite P4. lia.
      + unfold prune_old_data in Hp. destruct (get_header _ _); [|done]. by injection Hp as <-.
      + unfold head_ok, live_chain. by rewrite P1, P2, P5.
      + by apply (fin_inv_keep _ _ _ _ _ _ (proj1 Hn)).
    - injection H as <-. split; try done. split; [apply Hn|apply mem_start].
  Qed.

  Lemma node_step_inv A As w n e n' :
    node_inv A As w n -> node_step E n e = Ok n' -> exists w', step_ok A As w w' n n'.
  Proof.
    intros Hn H. assert ((exists sb, e = ev_block sb) \/ forall sb, e <> ev_block sb) as [[sb ->]|Hne]
      by (destruct e; eauto; by right).
    - cbn [node_step] in H. apply keep_Ok in H as [H|[_ ->]]; [|exists w; by apply step_refl].
      destruct (on_block_step _ _ _ _ _ _ Hn H) as (w' & Hs & _). eauto.
    - exists w. eapply node_step_same; [done|exact H|done].
  Qed.

  Lemma started_facts a n : valid_anchor E gt vals a -> started E a n ->
    node_inv (db_head (nd_db n)) (s_slot a) {[ db_head (nd_db n) := stored_anchor hs a ]} n /\ head_ok (nd_db n) /\
    (forall r h, t_headers (tab n) !! r = Some h -> r = db_head (nd_db n)) /\ db_time (nd_db n) = 0.
  Proof.
    intros Ha (d & Hn0).
    assert (exists body, init_store hs hh empty_tables a body = Ok d /\ (n = start_node d \/
      exists sb, get_forkchoice_store hs hh hb empty_tables a (sb_block sb) = Ok d /\ n = insert_anchor E (start_node d) sb))
      as (body & Hd & Hn).
    { destruct Hn0 as [[Hd ->]|(sb & Hg & Hn)].
      - exists None. split; [done|by left].
      - exists (Some (b_atts (sb_block sb))). split.
        + unfold get_forkchoice_store in Hg. by destruct (anchor_pair_is_consistent _ _ _ _) in Hg.
        + destruct Hn as [-> | ->]; [by left|right; eauto]. }
    destruct (db_inv_init _ _ _ Ha Hd) as (Hi & Hjf & Hj & _ & Ht & _).
    assert (forall r h, t_headers (db_tab d) !! r = Some h -> r = db_head d) as Hone.
    { apply init_unfold in Hd as [_ Hd0]. rewrite Hd0. cbn. intros r h. destruct body;
        cbn [t_headers set_live set_states set_bodies set_roots set_headers empty_tables];
        intros [[<- _]|[_ ?]]%lookup_insert_Some; [done|by rewrite lookup_empty in *|done|by rewrite lookup_empty in *]. }
    assert (head_ok d) as Hok.
    { unfold head_ok. destruct (live_just _ _ _ _ Hi) as [p Hp]. rewrite Hj in *. cbn in *. by eapply desc_refl. }
    destruct Hn as [->|(sb & Hg & ->)].
    - split; [split; [exact Hi|apply mem_start]|done].
    - apply C27_anchor_store_pf in Hg as (Eh & _ & _ & _ & _ & _ & Hhd & _ & Hlv & _).
      assert (t_headers (db_tab (import_block E d sb)) = t_headers (db_tab d)) as Hh'.
      { unfold import_block. cbn [db_tab with_tab insert_signed_block set_live t_headers]. rewrite write_headers_row. by apply insert_id. }
      assert (t_live (db_tab (import_block E d sb)) = t_live (db_tab d)) as Hl'.
      { unfold import_block. cbn [db_tab with_tab insert_signed_block set_live t_live].
        destruct (write_other (db_tab d) (root_ (sb_block sb)) sb) as [_ ->]. by apply insert_id. }
      split; [split; [|apply mem_start]|split_and!; [| |done]].
      + cbn [nd_db insert_anchor start_node].
        change (db_head (import_block E d sb)) with (db_head d).
        apply (db_inv_change _ _ _ d); rewrite ?Hh', ?Hl'; try done; try apply Hi.
        * intros r h Hh. by eapply db_inv_same_headers.
        * unfold import_block. cbn [db_tab with_tab insert_signed_block set_live t_states]. by rewrite write_states.
        * unfold import_block. cbn [db_tab with_tab insert_signed_block set_live t_diffs]. by rewrite write_diffs.
        * destruct (di_head _ _ _ _ Hi) as [s Hw]. destruct (di_path _ _ _ _ Hi _ _ Hw) as (l & Hp & _).
          apply (index_keep (db_tab d) _ _ _ l); try done; [by rewrite Hh'| |apply Hi].
          unfold import_block. cbn [db_tab with_tab insert_signed_block set_live t_roots]. by apply write_other.
      + cbn [nd_db insert_anchor start_node]. unfold head_ok, live_chain in *. by rewrite Hl'.
      + unfold tab. cbn [nd_db insert_anchor start_node]. by rewrite Hh'.
  Qed.
  Lemma started_inv a n : valid_anchor E gt vals a -> started E a n ->
    exists w, node_inv (db_head (nd_db n)) (s_slot a) w n /\ head_ok (nd_db n).
  Proof. intros Ha Hs. destruct (started_facts _ _ Ha Hs) as (H1 & H2 & _). eauto. Qed.
  Lemma run_inv A As w n es n' :
    node_inv A As w n -> node_run E n es n' -> exists w', step_ok A As w w' n n'.
  Proof.
    intros Hn Hr. induction Hr as [|es n1 e n2 Hr IH Hs]; [exists w; by apply step_refl|].
    destruct IH as (w1 & H1). destruct (node_step_inv _ _ _ _ _ _ (so_inv _ _ _ _ _ _ H1) Hs) as (w2 & H2).
    exists w2. by eapply step_trans.
  Qed.
End NodeInv.
