(** Proofs about the storage layer. *)
From Verif Require Export StorageSpec Lib STFThms STFMore.

(** ** Paths and the slot index (C21) *)
Lemma path_head t A r l : path t A r l -> exists l', l = r :: l'.
Proof. intros []; eauto. Qed.
Lemma path_det t A r l l' : path t A r l -> path t A r l' -> l = l'.
Proof.
  intros H. revert l'. induction H as [h Hh|r h l Hne Hh Hp IH]; intros l' Hl'.
  - inversion Hl'; [done|congruence].
  - inversion Hl' as [|? h' l'' ? Hh' Hp']; [congruence|]. simplify_eq. f_equal. by apply IH.
Qed.
Lemma path_stored t A r l x : path t A r l -> x ∈ l -> is_Some (t_headers t !! x).
Proof.
  induction 1 as [h Hh|r h l Hne Hh Hp IH]; intros Hx.
  - apply elem_of_list_singleton in Hx as ->. eauto.
  - apply elem_of_cons in Hx as [->|Hx]; eauto.
Qed.
Lemma path_keep t t' A r l :
  (forall r h, t_headers t !! r = Some h -> t_headers t' !! r = Some h) ->
  path t A r l -> path t' A r l.
Proof. intros Hk. induction 1; econstructor; eauto. Qed.
Lemma path_anchor t A r l : path t A r l -> is_Some (t_headers t !! A).
Proof. induction 1; eauto. Qed.
Lemma path_anchor_in t A r l : path t A r l -> A ∈ l.
Proof. induction 1; [left|right; done]. Qed.

Lemma descending_tail t r l : descending t (r :: l) -> descending t l.
Proof. intros H i a b h h' Ha Hb. exact (H (S i) a b h h' Ha Hb). Qed.
Lemma descending_keep t t' A r l :
  (forall r h, t_headers t !! r = Some h -> t_headers t' !! r = Some h) ->
  path t A r l -> descending t l -> descending t' l.
Proof.
  intros Hk Hp Hd i a b h h' Ha Hb Hha Hhb.
  destruct (path_stored t A r l a Hp (elem_of_list_lookup_2 _ _ _ Ha)) as [ha Hha'].
  destruct (path_stored t A r l b Hp (elem_of_list_lookup_2 _ _ _ Hb)) as [hb Hhb'].
  pose proof (Hk _ _ Hha'). pose proof (Hk _ _ Hhb'). simplify_eq.
  exact (Hd i a b h h' Ha Hb Hha' Hhb').
Qed.

Lemma slot_of_header t r h : t_headers t !! r = Some h -> slot_of t r = h_slot h.
Proof. unfold slot_of. by intros ->. Qed.

Lemma descending_head t A r l x :
  path t A r (r :: l) -> descending t (r :: l) -> x ∈ l -> slot_of t x < slot_of t r.
Proof.
  intros Hp. remember (r :: l) as k eqn:Hk. revert l Hk.
  induction Hp as [h Hh|r' h l' Hne Hh Hp IH]; intros l Hk Hd Hx; simplify_eq.
  - inversion Hx.
  - destruct (path_head _ _ _ _ Hp) as [l'' ->].
    destruct (path_stored _ _ _ _ (h_parent h) Hp) as [hp Hhp]; [left|].
    assert (slot_of t (h_parent h) < slot_of t r').
    { rewrite (slot_of_header _ _ _ Hh), (slot_of_header _ _ _ Hhp).
      exact (Hd 0%nat r' (h_parent h) h hp eq_refl eq_refl Hh Hhp). }
    apply elem_of_cons in Hx as [->|Hx]; [done|].
    assert (slot_of t x < slot_of t (h_parent h)); [|lia].
    eapply IH; [done| |done]. by eapply descending_tail.
Qed.
Lemma descending_nodup t A r l : path t A r l -> descending t l -> NoDup (map (slot_of t) l).
Proof.
  intros Hp. induction Hp as [h Hh|r h l Hne Hh Hp IH]; intros Hd.
  - apply NoDup_singleton.
  - cbn. constructor.
    + rewrite elem_of_map. intros (x & Hx & Hin).
      assert (slot_of t x < slot_of t r); [|lia].
      eapply descending_head; [by econstructor|done|done].
    + apply IH. by eapply descending_tail.
Qed.
Lemma slot_inj t (l : list H256) a b :
  NoDup (map (slot_of t) l) -> a ∈ l -> b ∈ l -> slot_of t a = slot_of t b -> a = b.
Proof.
  induction l as [|x l IH]; cbn; intros Hn Ha Hb Heq; [inversion Ha|].
  inversion Hn as [|? ? Hni Hn']; subst.
  apply elem_of_cons in Ha as [->|Ha]; apply elem_of_cons in Hb as [->|Hb].
  - done.
  - exfalso. apply Hni. apply elem_of_map. eauto.
  - exfalso. apply Hni. apply elem_of_map. eauto.
  - by apply IH.
Qed.


Lemma nodup_keys_length {V} (m : gmap H256 V) (l : list H256) :
  NoDup l -> (forall x, x ∈ l -> is_Some (m !! x)) -> (length l <= size m)%nat.
Proof.
  intros Hn Hin.
  assert (l ⊆+ map fst (map_to_list m)) as Hs.
  { apply NoDup_submseteq; [done|]. intros x Hx. destruct (Hin x Hx) as [v Hv].
    apply elem_of_map. exists (x, v). split; [done|]. by apply elem_of_map_to_list. }
  apply submseteq_length in Hs. rewrite map_length in Hs. exact Hs.
Qed.
Lemma path_length t A r l :
  path t A r l -> NoDup (map (slot_of t) l) -> (length l <= size (t_headers t))%nat.
Proof.
  intros Hp Hn. apply nodup_keys_length; [by eapply NoDup_fmap_1|].
  intros x Hx. by eapply path_stored.
Qed.

(** The walk of [block_root_index_changes] pops the two paths down to their
    longest common suffix. *)
Lemma index_changes_spec t A fuel old new oh nh lo ln dels puts :
  t_headers t !! old = Some oh -> t_headers t !! new = Some nh ->
  path t A old lo -> path t A new ln -> descending t lo -> descending t ln ->
  (length lo + length ln <= fuel)%nat ->
  exists lo1 ln1 common,
    lo = lo1 ++ common /\ ln = ln1 ++ common /\
    (forall x, x ∈ lo1 -> x ∉ ln) /\ (forall x, x ∈ ln1 -> x ∉ lo) /\
    index_changes fuel t old new oh nh dels puts =
      Ok (dels ++ map (slot_of t) lo1, puts ++ map (fun r => (slot_of t r, r)) ln1).
Proof.
  revert old new oh nh lo ln dels puts.
  induction fuel as [|f IH]; intros old new oh nh lo ln dels puts Ho Hn Hpo Hpn Hdo Hdn Hf.
  { destruct (path_head _ _ _ _ Hpo) as [? ->]. cbn in Hf. lia. }
  cbn [index_changes]. destruct (N.eqb_spec old new) as [->|Hne].
  { exists [], [], lo. cbn. rewrite !app_nil_r.
    rewrite (path_det _ _ _ _ _ Hpo Hpn) in *. split_and!; try done; intros x Hx; inversion Hx. }
  destruct (N.ltb_spec (h_slot oh) (h_slot nh)) as [Hlt|Hge].
  - inversion Hpn as [h Hh|r h l HnA Hh Hp']; simplify_eq.
    { (* new is the anchor: then old is above it *)
      exfalso. inversion Hpo as [|r h' l HoA Hh' Hp']; simplify_eq.
      assert (slot_of t new < slot_of t old) as Hlt'.
      { eapply descending_head; [done|done|]. by eapply path_anchor_in. }
      rewrite (slot_of_header _ _ _ Ho), (slot_of_header _ _ _ Hn) in Hlt'. lia. }
    destruct (path_head _ _ _ _ Hp') as [l' ->].
    destruct (path_stored _ _ _ _ (h_parent nh) Hp') as [nh' Hnh']; [left|].
    unfold get_header. rewrite Hnh'.
    edestruct (IH old (h_parent nh) oh nh' lo (h_parent nh :: l') dels (puts ++ [(h_slot nh, new)]))
      as (lo1 & ln1 & common & -> & Heq & Hd1 & Hd2 & ->); try done.
    { by eapply descending_tail. }
    { cbn [length] in *. lia. }
    assert (forall x, x ∈ lo1 ++ common -> slot_of t x <= h_slot oh) as Hle.
    { intros x Hx. destruct (path_head _ _ _ _ Hpo) as [l0 Hl0].
      rewrite Hl0 in Hx. apply elem_of_cons in Hx as [->|Hx].
      - by rewrite (slot_of_header _ _ _ Ho).
      - rewrite <- (slot_of_header _ _ _ Ho). rewrite Hl0 in Hpo, Hdo.
        pose proof (descending_head _ _ _ _ _ Hpo Hdo Hx). lia. }
    exists lo1, (new :: ln1), common. cbn. rewrite (slot_of_header _ _ _ Hn), <- app_assoc.
    split_and!; try done.
    + by rewrite Heq.
    + intros x Hx Hx'. apply elem_of_cons in Hx' as [->|Hx'].
      * assert (slot_of t new <= h_slot oh) by (apply Hle; set_solver).
        rewrite (slot_of_header _ _ _ Hn) in *. lia.
      * by eapply Hd1.
    + intros x Hx Hx'. apply elem_of_cons in Hx as [->|Hx].
      * assert (slot_of t new <= h_slot oh) by (by apply Hle).
        rewrite (slot_of_header _ _ _ Hn) in *. lia.
      * by eapply Hd2.
  - inversion Hpo as [h Hh|r h l HoA Hh Hp']; simplify_eq.
    { exfalso. inversion Hpn as [|r h' l HnA Hh' Hp']; simplify_eq.
      assert (slot_of t old < slot_of t new) as Hlt'.
      { eapply descending_head; [done|done|]. by eapply path_anchor_in. }
      rewrite (slot_of_header _ _ _ Ho), (slot_of_header _ _ _ Hn) in Hlt'. lia. }
    destruct (path_head _ _ _ _ Hp') as [l' ->].
    destruct (path_stored _ _ _ _ (h_parent oh) Hp') as [oh' Hoh']; [left|].
    unfold get_header. rewrite Hoh'.
    edestruct (IH (h_parent oh) new oh' nh (h_parent oh :: l') ln (dels ++ [h_slot oh]) puts)
      as (lo1 & ln1 & common & Heq & -> & Hd1 & Hd2 & ->); try done.
    { by eapply descending_tail. }
    { cbn [length] in *. lia. }
    assert (old ∉ ln1 ++ common) as Hold.
    { intros Hx. destruct (path_head _ _ _ _ Hpn) as [l0 Hl0].
      rewrite Hl0 in Hx. apply elem_of_cons in Hx as [->|Hx]; [done|].
      rewrite Hl0 in Hpn, Hdn. pose proof (descending_head _ _ _ _ _ Hpn Hdn Hx).
      rewrite (slot_of_header _ _ _ Ho), (slot_of_header _ _ _ Hn) in *. lia. }
    exists (old :: lo1), ln1, common. cbn. rewrite (slot_of_header _ _ _ Ho), <- app_assoc.
    split_and!; try done.
    + by rewrite Heq.
    + intros x Hx. apply elem_of_cons in Hx as [->|Hx]; [done|by apply Hd1].
    + intros x Hx Hx'. apply elem_of_cons in Hx' as [->|Hx']; [|by eapply Hd2].
      apply Hold. set_solver.
Qed.

Lemma fold_delete_lookup (l : list N) (m : gmap N H256) s :
  fold_left (fun m k => delete k m) l m !! s = if decide (s ∈ l) then None else m !! s.
Proof.
  revert m. induction l as [|k l IH]; intros m; cbn [fold_left].
  - by rewrite decide_False by (by intros H; inversion H).
  - rewrite IH. destruct (decide (s ∈ l)) as [Hs|Hs].
    + by rewrite decide_True by (by right).
    + destruct (decide (s = k)) as [->|Hk].
      * rewrite decide_True by left. by rewrite lookup_delete.
      * rewrite decide_False by (rewrite not_elem_of_cons; done). by rewrite lookup_delete_ne.
Qed.
Lemma fold_insert_lookup t (l : list H256) (m : gmap N H256) s :
  NoDup (map (slot_of t) l) ->
  fold_left (fun m (e : N * H256) => <[e.1 := e.2]> m) (map (fun r => (slot_of t r, r)) l) m !! s =
  match find (fun r => slot_of t r =? s) l with Some r => Some r | None => m !! s end.
Proof.
  revert m. induction l as [|k l IH]; intros m Hn; cbn; [done|].
  inversion Hn as [|? ? Hni Hn']; subst. rewrite IH by done.
  destruct (N.eqb_spec (slot_of t k) s) as [Hk|Hk].
  - destruct (find _ l) eqn:Hf.
    + apply find_some in Hf as [Hf1 Hf2]. exfalso. apply Hni. apply elem_of_map.
      exists n. rewrite elem_of_list_In. split; [lia|done].
    + rewrite <- Hk. by rewrite lookup_insert.
  - destruct (find _ l); [done|]. by rewrite lookup_insert_ne.
Qed.

Lemma head_change d A new lo ln just fin :
  index_exact (db_tab d) A (db_head d) ->
  path (db_tab d) A (db_head d) lo -> descending (db_tab d) lo ->
  path (db_tab d) A new ln -> descending (db_tab d) ln ->
  exists roots,
    apply_checkpoints d new just fin =
      Ok (mkDb (db_time d) (db_gt d) new (db_safe d) (default (db_just d) just)
            (default (db_fin d) fin) (set_roots (db_tab d) roots)) /\
    index_exact (set_roots (db_tab d) roots) A new.
Proof.
  intros Hix Hpo Hdo Hpn Hdn. set (t := db_tab d) in *.
  pose proof (descending_nodup _ _ _ _ Hpo Hdo) as Hno.
  pose proof (descending_nodup _ _ _ _ Hpn Hdn) as Hnn.
  destruct (path_head _ _ _ _ Hpo) as [lo' Elo]. destruct (path_head _ _ _ _ Hpn) as [ln' Eln].
  destruct (path_stored _ _ _ _ (db_head d) Hpo) as [oh Hoh]; [rewrite Elo; left|].
  destruct (path_stored _ _ _ _ new Hpn) as [nh Hnh]; [rewrite Eln; left|].
  destruct (index_changes_spec t A (2 * size (t_headers t)) (db_head d) new oh nh lo ln [] [])
    as (lo1 & ln1 & common & Hlo & Hln & Hd1 & Hd2 & Hch); try done.
  { pose proof (path_length _ _ _ _ Hpo Hno). pose proof (path_length _ _ _ _ Hpn Hnn). lia. }
  unfold apply_checkpoints, block_root_index_changes, get_header. fold t. rewrite Hoh, Hnh, Hch.
  cbn [rbind]. eexists. split; [reflexivity|].
  set (roots1 := fold_left _ _ (t_roots t)).
  intros s r. cbn [t_roots set_roots].
  assert (forall roots a l, path (set_roots t roots) A a l <-> path t A a l) as Hpath.
  { intros roots a l. split; apply path_keep; done. }
  unfold on_chain_of. setoid_rewrite Hpath. cbn [t_headers set_roots].
  cbn [app]. rewrite fold_insert_lookup.
  2: { rewrite Hln in Hnn. rewrite map_app in Hnn. by apply NoDup_app in Hnn as (? & _). }
  unfold roots1. rewrite fold_delete_lookup. cbn [app].
  split.
  - destruct (find _ ln1) as [r'|] eqn:Hf.
    + intros [= ->]. apply find_some in Hf as [Hf1 Hf2]. rewrite <- elem_of_list_In in Hf1.
      assert (r ∈ ln) as Hr by (rewrite Hln; set_solver).
      destruct (path_stored _ _ _ _ r Hpn Hr) as [h Hh].
      exists ln, h. split_and!; try done. rewrite <- (slot_of_header _ _ _ Hh). lia.
    + destruct (decide (s ∈ map (slot_of t) lo1)) as [Hs|Hs]; [done|].
      intros Hr. apply Hix in Hr as (l & h & Hp & Hr & Hh & Hslot).
      rewrite (path_det _ _ _ _ _ Hp Hpo) in Hr. clear Hp l.
      exists ln, h. split_and!; try done. rewrite Hlo in Hr. rewrite Hln.
      apply elem_of_app in Hr as [Hr|Hr]; [|set_solver].
      exfalso. apply Hs. apply elem_of_map. exists r. rewrite (slot_of_header _ _ _ Hh). done.
  - intros (l & h & Hp & Hr & Hh & Hslot). rewrite (path_det _ _ _ _ _ Hp Hpn) in Hr. clear Hp l.
    pose proof (slot_of_header _ _ _ Hh) as Hso.
    destruct (find _ ln1) as [r'|] eqn:Hf.
    + apply find_some in Hf as [Hf1 Hf2]. rewrite <- elem_of_list_In in Hf1. f_equal.
      eapply slot_inj; [exact Hnn| |done|lia]. rewrite Hln. set_solver.
    + rewrite Hln in Hr. apply elem_of_app in Hr as [Hr|Hr].
      { exfalso. rewrite elem_of_list_In in Hr. pose proof (find_none _ _ Hf r Hr) as Hfn. cbn in Hfn. lia. }
      rewrite decide_False.
      * apply Hix. exists lo, h. split_and!; try done. rewrite Hlo. set_solver.
      * rewrite elem_of_map. intros (x & Hx & Hin).
        assert (x = r) as ->.
        { eapply slot_inj; [exact Hno| | |lia]; rewrite Hlo; set_solver. }
        apply (Hd1 r Hin). rewrite Hln. set_solver.
Qed.

(** ** Stored states (C22) *)

Lemma replay_app h ps ds ds' :
  replay_history h ps (ds ++ ds') =
  rbind (replay_history h ps ds)
    (fun h' => replay_history h' (match last ds with Some d => df_slot d | None => ps end) ds').
Proof.
  revert h ps. induction ds as [|d ds IH]; intros h ps; [done|].
  cbn [app replay_history]. destruct (_ <? _); [done|]. rewrite IH.
  destruct ds as [|d' ds]; [done|]. change (last (d :: d' :: ds)) with (last (d' :: ds)).
  destruct (last (d' :: ds)) as [x|] eqn:Hl; [done|]. by apply last_None in Hl.
Qed.

Section StateProofs.
  Context (hash_state : State -> H256) (hash_header : Header -> H256)
          (hash_body : list AggAtt -> H256).
  Notation stf_ := (state_transition hash_state hash_header hash_body).

  (** The latest header already carries its state root. *)
  Definition sealed (s : State) : Prop := filled_header hash_state s = s_header s.

  Lemma sealed_set a r :
    h_state_root (s_header a) = ZERO -> r = hash_state a ->
    sealed (with_header a (set_state_root (s_header a) r)).
  Proof.
    intros Hz ->.
    assert (with_header a (set_state_root (s_header a) ZERO) = a) as Ha.
    { destruct a as [? ? [] ? ? ? ? ? ? ?]; cbn in *. by subst. }
    unfold sealed, filled_header. cbn.
    destruct (N.eqb_spec (hash_state a) ZERO) as [He|]; [|done].
    unfold set_state_root in *. cbn. by rewrite He, Ha, He.
  Qed.
  Lemma sealed_stored p b post : stf_ p b = Ok post -> sealed (stored_state post b).
  Proof.
    intros H. apply C02_block_linkage_pf in H as (_ & _ & _ & Hsr & _ & Hh & _).
    apply sealed_set; [|done]. by rewrite Hh.
  Qed.
  Lemma sealed_anchor a : sealed (stored_anchor hash_state a).
  Proof.
    unfold stored_anchor.
    set (z := with_header a (set_state_root (s_header a) ZERO)).
    replace (with_header a (set_state_root (s_header a) (hash_state z)))
      with (with_header z (set_state_root (s_header z) (hash_state z))) by done.
    by apply sealed_set.
  Qed.

  (** A block's transition from a sealed state appends the parent root and the
      skipped slots to the history. *)
  Lemma stf_history p b post :
    stf_ p b = Ok post ->
    s_hist post = s_hist p ++ hash_header (filled_header hash_state p)
                     :: replicate (N.to_nat (b_slot b - h_slot (s_header p) - 1)) ZERO /\
    lenN (s_hist post) <= HISTORICAL_ROOTS_LIMIT.
  Proof.
    unfold state_transition, process_slots. destruct (_ <=? _) eqn:Hle; [done|]. cbn [rbind].
    unfold process_block. destruct (process_block_header _ _ _ _) as [s2| |] eqn:Hh; cbn [rbind]; try done.
    destruct (process_attestations s2 (b_atts b)) as [s3| |] eqn:Ha; cbn [rbind]; try done.
    destruct (b_state_root b =? hash_state s3); [|done]. intros [= <-].
    apply process_attestations_frame in Ha. rewrite (fr_hist _ _ Ha).
    set (s1 := with_slot _ _) in Hh.
    assert (s_header s1 = filled_header hash_state p /\ s_hist s1 = s_hist p) as [E1 E2].
    { subst s1. unfold filled_header. by destruct (_ =? _). }
    assert (h_slot (s_header s1) = h_slot (s_header p)) as E3.
    { rewrite E1. unfold filled_header. by destruct (_ =? _). }
    clearbody s1. unfold process_block_header in Hh.
    destruct (negb (b_slot b =? s_slot s1)); [done|].
    destruct (b_slot b <=? h_slot (s_header s1)); [done|]. destruct (current_proposer _ _) as [pr|]; [|done].
    destruct (negb (b_proposer b =? pr)); [done|].
    destruct (negb (b_parent b =? hash_header (s_header s1))); [done|].
    destruct (HISTORICAL_ROOTS_LIMIT <? _) eqn:Hlim; [done|].
    destruct (extend_to_slot _ _ _) as [js| |]; cbn [rbind] in Hh; try done.
    apply Ok_inj in Hh as <-.
    cbn [s_hist with_header with_jslots with_hist]. split; [by rewrite E2, E3, E1|]. rewrite E2, E3 in *.
    rewrite lenN_app. cbn. unfold lenN in *. cbn. rewrite replicate_length. lia.
  Qed.

  (** Facts about a stored import. *)
  Lemma stored_facts p b post :
    stf_ p b = Ok post -> sealed p -> s_slot p = h_slot (s_header p) ->
    let s := stored_state post b in
    s_header s = header_of hash_body b /\ s_slot s = b_slot b /\ s_slot p < s_slot s /\
    b_parent b = hash_header (s_header p) /\
    s_hist s = s_hist p ++ b_parent b :: replicate (N.to_nat (s_slot s - s_slot p - 1)) ZERO /\
    lenN (s_hist s) <= HISTORICAL_ROOTS_LIMIT /\
    s_genesis_time s = s_genesis_time p /\ s_validators s = s_validators p.
  Proof.
    intros H Hse Hsl. pose proof (stf_history _ _ _ H) as [Hhist Hlen].
    pose proof (C02_block_linkage_pf _ _ _ _ _ _ H) as (H1 & H2 & H3 & H4 & H5 & H6 & H7 & H8).
    unfold sealed in Hse. cbn. rewrite H5, H6, H7, H8. cbn. rewrite Hse in *.
    split_and!; try done. by rewrite Hhist, Hsl, H3.
  Qed.

  Record st_inv (t : Tables) (c : Cache) (w : gmap H256 State) : Prop := {
    si_hash : forall r h, t_headers t !! r = Some h -> hash_header h = r;
    si_head : forall r s, w !! r = Some s ->
      t_headers t !! r = Some (s_header s) /\ s_slot s = h_slot (s_header s) /\ sealed s;
    si_states : forall r s, t_states t !! r = Some s -> w !! r = Some s;
    si_diffs : forall r d, t_diffs t !! r = Some d -> exists s p,
      w !! r = Some s /\ w !! df_base d = Some p /\
      d = mkDiff (df_base d) (s_slot s) (s_justified s) (s_finalized s) (s_jslots s) (s_jroots s) (s_jvals s) /\
      s_slot p < s_slot s /\
      s_hist s = s_hist p ++ df_base d :: replicate (N.to_nat (s_slot s - s_slot p - 1)) ZERO /\
      lenN (s_hist s) <= HISTORICAL_ROOTS_LIMIT /\
      s_genesis_time s = s_genesis_time p /\ s_validators s = s_validators p;
    si_has : forall r s, w !! r = Some s -> is_Some (t_states t !! r) \/ is_Some (t_diffs t !! r);
    si_cache : forall r s, (r, s) ∈ c -> w !! r = Some s }.

  Lemma collect_spec t c w r s :
    st_inv t c w -> w !! r = Some s ->
    exists s0 rs ds,
      NoDup rs /\ (forall x, x ∈ rs -> is_Some (t_diffs t !! x) /\ exists sx, w !! x = Some sx /\ s_slot sx <= s_slot s) /\
      (forall fuel acc, (length rs <= fuel)%nat ->
         collect_diffs fuel t r acc = Ok (Some (s0, ds ++ acc))) /\
      replay_history (s_hist s0) (s_slot s0) ds = Ok (s_hist s) /\
      s_genesis_time s0 = s_genesis_time s /\ s_validators s0 = s_validators s /\
      match last ds with
      | None => s0 = s /\ t_states t !! r = Some s
      | Some d => df_slot d = s_slot s /\ df_justified d = s_justified s /\ df_finalized d = s_finalized s /\
                  df_jslots d = s_jslots s /\ df_jroots d = s_jroots s /\ df_jvals d = s_jvals s /\
                  lenN (s_hist s) <= HISTORICAL_ROOTS_LIMIT /\ t_states t !! r = None
      end.
  Proof.
    intros Hi. remember (s_slot s) as n eqn:Hn. revert r s Hn.
    induction (N.lt_wf_0 n) as [n _ IH]; intros r s -> Hw.
    destruct (t_states t !! r) as [s'|] eqn:Hs.
    - pose proof (si_states _ _ _ Hi _ _ Hs). simplify_eq.
      exists s, [], []. split_and!; try done; [constructor|intros x Hx; inversion Hx|].
      intros fuel acc _. destruct fuel; cbn; by rewrite Hs.
    - destruct (si_has _ _ _ Hi _ _ Hw) as [[? ?]|[d Hd]]; [congruence|].
      destruct (si_diffs _ _ _ Hi _ _ Hd) as (s' & p & Hw' & Hp & Ed & Hlt & Hh & Hlen & Hg & Hv).
      simplify_eq.
      destruct (IH _ Hlt (df_base d) p eq_refl Hp) as (s0 & rs & ds & Hnd & Hrs & Hcol & Hrep & Hg0 & Hv0 & Hlast).
      exists s0, (r :: rs), (ds ++ [d]). split_and!.
      + constructor; [|done]. intros Hin. destruct (Hrs _ Hin) as (_ & sx & Hx & Hle). simplify_eq. lia.
      + intros x Hx. apply elem_of_cons in Hx as [->|Hx].
        * split; [eauto|]. exists s. split; [done|lia].
        * destruct (Hrs _ Hx) as (? & sx & ? & ?). split; [done|]. exists sx. split; [done|lia].
      + intros fuel acc Hf. destruct fuel as [|fuel]; [cbn in Hf; lia|].
        cbn [collect_diffs]. rewrite Hs, Hd, Hcol by (cbn in Hf; lia). by rewrite <- app_assoc.
      + rewrite replay_app, Hrep. cbn [rbind replay_history].
        assert ((match last ds with Some d0 => df_slot d0 | None => s_slot s0 end) = s_slot p) as ->.
        { destruct (last ds); destruct Hlast as [Hl ?]; [done|by subst]. }
        assert (df_slot d = s_slot s) as -> by (rewrite Ed; done).
        destruct (N.ltb_spec (s_slot s) (s_slot p + 1)); [lia|]. by rewrite Hh.
      + congruence.
      + congruence.
      + rewrite last_snoc. rewrite Ed. cbn. done.
  Qed.

  Lemma read_spec t c w r s :
    st_inv t c w -> w !! r = Some s -> read_state t r = Ok (Some s).
  Proof.
    intros Hi Hw. unfold read_state. destruct (t_states t !! r) as [s'|] eqn:Hs.
    { by rewrite (si_states _ _ _ Hi _ _ Hs) in Hw; simplify_eq. }
    destruct (collect_spec _ _ _ _ _ Hi Hw) as (s0 & rs & ds & Hnd & Hrs & Hcol & Hrep & Hg & Hv & Hlast).
    unfold reconstruct_state. rewrite Hcol.
    2: { apply nodup_keys_length; [done|]. intros x Hx. by destruct (Hrs _ Hx). }
    cbn [rbind]. rewrite app_nil_r.
    destruct (si_head _ _ _ Hi _ _ Hw) as (Hh & _ & _). unfold get_header. rewrite Hh.
    unfold reconstruct. destruct (last ds) as [d|].
    - destruct Hlast as (H1 & H2 & H3 & H4 & H5 & H6 & H7 & _). rewrite Hrep. cbn [rbind].
      destruct (N.ltb_spec HISTORICAL_ROOTS_LIMIT (lenN (s_hist s))); [lia|].
      rewrite H1, H2, H3, H4, H5, H6, Hg, Hv. by destruct s.
    - destruct Hlast as [_ ?]. congruence.
  Qed.
  Lemma read_none t c w r :
    st_inv t c w -> w !! r = None -> read_state t r = Ok None.
  Proof.
    intros Hi Hw. unfold read_state.
    destruct (t_states t !! r) as [s'|] eqn:Hs.
    { rewrite (si_states _ _ _ Hi _ _ Hs) in Hw. done. }
    unfold reconstruct_state.
    destruct (t_diffs t !! r) as [d|] eqn:Hd.
    { destruct (si_diffs _ _ _ Hi _ _ Hd) as (s & _ & H & _). congruence. }
    destruct (size (t_diffs t)); cbn; by rewrite Hs, Hd.
  Qed.

  Lemma cache_find_in c r s : cache_find c r = Some s -> (r, s) ∈ c.
  Proof.
    unfold cache_find. destruct (find _ c) as [[r' s']|] eqn:Hf; [|done]. cbn. intros [= ->].
    apply find_some in Hf as [Hf He]. cbn in He. rewrite <- elem_of_list_In in Hf.
    by apply N.eqb_eq in He as ->.
  Qed.
  Lemma cache_drop_in c r e : e ∈ cache_drop c r -> e ∈ c.
  Proof. unfold cache_drop. rewrite !elem_of_list_In, filter_In. tauto. Qed.
  Lemma take_in {A} n (l : list A) x : x ∈ take n l -> x ∈ l.
  Proof. intros H. rewrite <- (take_drop n l). set_solver. Qed.

  Lemma get_state_spec t c w r :
    st_inv t c w ->
    exists c', get_state t c r = Ok (w !! r, c') /\
      (forall e, e ∈ c' -> e ∈ c \/ exists s, e = (r, s) /\ w !! r = Some s).
  Proof.
    intros Hi. unfold get_state. destruct (cache_find c r) as [s|] eqn:Hc.
    - apply cache_find_in in Hc. rewrite (si_cache _ _ _ Hi _ _ Hc). eexists. split; [done|].
      intros e He. apply elem_of_cons in He as [->|He].
      + right. exists s. done.
      + left. by eapply cache_drop_in.
    - destruct (w !! r) as [s|] eqn:Hw.
      + rewrite (read_spec _ _ _ _ _ Hi Hw). cbn [rbind]. eexists. split; [done|].
        intros e He. apply take_in in He. apply elem_of_cons in He as [->|He]; [eauto|].
        left. by eapply cache_drop_in.
      + rewrite (read_none _ _ _ _ Hi Hw). cbn [rbind]. eexists. split; [done|]. tauto.
  Qed.
  Lemma has_state_spec t c w r : st_inv t c w -> has_state t r = bool_decide (is_Some (w !! r)).
  Proof.
    intros Hi. unfold has_state. destruct (w !! r) as [s|] eqn:Hw.
    - rewrite (bool_decide_eq_true_2 (is_Some (Some s))) by eauto.
      destruct (si_has _ _ _ Hi _ _ Hw) as [H|H].
      + by rewrite bool_decide_eq_true_2.
      + rewrite (bool_decide_eq_true_2 (is_Some (t_diffs t !! r))) by done. by rewrite orb_true_r.
    - rewrite (bool_decide_eq_false_2 (is_Some None)) by (by intros [? ?]).
      rewrite !bool_decide_eq_false_2; [done| |].
      + intros [d Hd]. destruct (si_diffs _ _ _ Hi _ _ Hd) as (s & _ & H & _). congruence.
      + intros [s Hs]. rewrite (si_states _ _ _ Hi _ _ Hs) in Hw. done.
  Qed.

  Lemma st_inv_cache t c w c' :
    st_inv t c w -> (forall e, e ∈ c' -> e ∈ c \/ exists r s, e = (r, s) /\ w !! r = Some s) -> st_inv t c' w.
  Proof.
    intros [] Hc. split; try done. intros r s Hrs. destruct (Hc _ Hrs) as [?|(r' & s' & He & ?)]; [eauto|].
    by simplify_eq.
  Qed.

  Lemma write_headers_row t root sb :
    t_headers (write_signed_block hash_body t root sb) = <[root := header_of hash_body (sb_block sb)]> (t_headers t).
  Proof. unfold write_signed_block. by destruct (_ =? _). Qed.
  Lemma write_states t root sb : t_states (write_signed_block hash_body t root sb) = t_states t.
  Proof. unfold write_signed_block. by destruct (_ =? _). Qed.
  Lemma write_diffs t root sb : t_diffs (write_signed_block hash_body t root sb) = t_diffs t.
  Proof. unfold write_signed_block. by destruct (_ =? _). Qed.

  Lemma insert_headers_row t root sb :
    t_headers (insert_signed_block hash_body t root sb) = <[root := header_of hash_body (sb_block sb)]> (t_headers t).
  Proof. apply write_headers_row. Qed.
  Lemma insert_states t root sb : t_states (insert_signed_block hash_body t root sb) = t_states t.
  Proof. apply write_states. Qed.
  Lemma insert_diffs t root sb : t_diffs (insert_signed_block hash_body t root sb) = t_diffs t.
  Proof. apply write_diffs. Qed.

  Context (hash_header_inj : forall h h', hash_header h = hash_header h' -> h = h').

  (** Writing a block under its root keeps the invariant. *)
  Lemma st_inv_write t c w sb t' :
    st_inv t c w ->
    t_headers t' = <[block_root hash_header hash_body (sb_block sb) := header_of hash_body (sb_block sb)]> (t_headers t) ->
    t_states t' = t_states t -> t_diffs t' = t_diffs t ->
    st_inv t' c w.
  Proof.
    intros Hi Hh Hs Hd. split.
    - intros r h. rewrite Hh. intros H. apply lookup_insert_Some in H as [[<- <-]|[_ H]]; [done|].
      by apply (si_hash _ _ _ Hi).
    - intros r s Hw. destruct (si_head _ _ _ Hi _ _ Hw) as (H1 & H2 & H3). split_and!; try done.
      rewrite Hh. destruct (decide (block_root hash_header hash_body (sb_block sb) = r)) as [<-|Hne].
      + rewrite lookup_insert. f_equal. apply hash_header_inj. symmetry. by apply (si_hash _ _ _ Hi).
      + by rewrite lookup_insert_ne.
    - rewrite Hs. apply Hi.
    - rewrite Hd. apply Hi.
    - rewrite Hs, Hd. apply Hi.
    - apply Hi.
  Qed.

  (** [insert_state] on top of the parent's stored state succeeds and keeps the
      invariant for the extended record. *)
  Lemma insert_state_spec t c w b p post :
    st_inv t c w ->
    let root := block_root hash_header hash_body b in
    t_headers t !! root = Some (header_of hash_body b) ->
    w !! root = None -> w !! b_parent b = Some p -> stf_ p b = Ok post ->
    exists t' c', insert_state hash_header t c root (stored_state post b) = Ok (t', c') /\
      st_inv t' c' (<[root := stored_state post b]> w) /\ 
      t_headers t' = t_headers t /\ t_bodies t' = t_bodies t /\ t_proofs t' = t_proofs t /\
      t_roots t' = t_roots t /\ t_live t' = t_live t.
  Proof.
    intros Hi root Hrow Hnew Hp Hst.
    destruct (si_head _ _ _ Hi _ _ Hp) as (Hph & Hps & Hpse).
    pose proof (stored_facts _ _ _ Hst Hpse Hps) as Hf. set (s := stored_state post b) in *.
    destruct Hf as (F1 & F2 & F3 & F4 & F5 & F6 & F7 & F8).
    assert (h_parent (s_header s) = b_parent b) as Hpar by (by rewrite F1).
    unfold insert_state. rewrite Hpar.
    destruct (get_state_spec _ _ _ (b_parent b) Hi) as (c1 & -> & Hc1). cbn [rbind]. rewrite Hp.
    assert (diff_from_states hash_header p s =
            Ok (mkDiff (b_parent b) (s_slot s) (s_justified s) (s_finalized s) (s_jslots s) (s_jroots s) (s_jvals s))) as Hdiff.
    { unfold diff_from_states. destruct (N.ltb_spec (s_slot s) (s_slot p)); [lia|].
      rewrite <- F4. replace (validate_history_append _ _ _ _) with true; [done|].
      symmetry. unfold validate_history_append.
      assert (length (s_hist p) <= length (s_hist s))%nat by (rewrite F5, app_length; lia).
      destruct (Nat.ltb_spec (length (s_hist s)) (length (s_hist p))); [lia|].
      rewrite F5, drop_app. unfold lenN. cbn [length]. rewrite replicate_length.
      destruct (N.eqb_spec (N.of_nat (S (N.to_nat (s_slot s - s_slot p - 1)))) (s_slot s - s_slot p)); [|lia].
      cbn [negb]. rewrite N.eqb_refl. cbn [andb]. apply forallb_forall.
      intros x Hx. rewrite <- elem_of_list_In in Hx. apply elem_of_replicate in Hx as [-> _]. done. }
    rewrite Hdiff. set (d := mkDiff _ _ _ _ _ _ _) in *.
    assert (forall x sx, w !! x = Some sx -> <[root := s]> w !! x = Some sx) as Hmono.
    { intros x sx Hx. rewrite lookup_insert_ne; [done|]. congruence. }
    set (snap := _ <? _).
    exists (if snap then set_states (set_diffs t (<[root:=d]> (t_diffs t))) (<[root := s]> (t_states t))
            else set_diffs t (<[root:=d]> (t_diffs t))), (cache_put c1 root s).
    split; [by destruct snap|].
    split; [|by destruct snap].
    split.
    - intros r h Hr. apply (si_hash _ _ _ Hi). by destruct snap.
    - intros r s' Hr. assert (t_headers t !! r = Some (s_header s') /\ s_slot s' = h_slot (s_header s') /\ sealed s') as H.
      { apply lookup_insert_Some in Hr as [[<- <-]|[_ Hr]]; [|by apply (si_head _ _ _ Hi)].
        rewrite F1, F2, Hrow. split_and!; try done. by eapply sealed_stored. }
      by destruct snap.
    - intros r s' Hr. destruct snap; cbn in Hr; [|by apply Hmono, (si_states _ _ _ Hi)].
      apply lookup_insert_Some in Hr as [[<- <-]|[Hne Hr]]; [by rewrite lookup_insert|].
      by apply Hmono, (si_states _ _ _ Hi).
    - intros r d' Hr. assert (<[root:=d]> (t_diffs t) !! r = Some d') as Hr' by (by destruct snap).
      apply lookup_insert_Some in Hr' as [[<- <-]|[Hne Hr']].
      + exists s, p. rewrite lookup_insert. subst d. cbn. split_and!; try done. by apply Hmono.
      + destruct (si_diffs _ _ _ Hi _ _ Hr') as (s' & p' & H1 & H2 & H3). exists s', p'.
        split_and!; try (by apply Hmono); apply H3.
    - intros r s' Hr. apply lookup_insert_Some in Hr as [[<- <-]|[Hne Hr]].
      + right. destruct snap; cbn; rewrite lookup_insert; eauto.
      + destruct (si_has _ _ _ Hi _ _ Hr) as [H|H]; destruct snap; cbn; rewrite ?lookup_insert_ne by done; tauto.
    - intros r s' Hr. unfold cache_put in Hr. apply take_in in Hr.
      apply elem_of_cons in Hr as [[= -> ->]|Hr]; [by rewrite lookup_insert|].
      apply cache_drop_in in Hr. apply Hmono. destruct (Hc1 _ Hr) as [H|(? & [= -> ->] & H)]; [|done].
      by eapply si_cache.
  Qed.

  Lemma init_unfold t a body d :
    init_store hash_state hash_header t a body = Ok d ->
    let s := stored_anchor hash_state a in
    let root := hash_header (s_header s) in
    (h_state_root (s_header a) = ZERO \/
     h_state_root (s_header a) = hash_state (with_header a (set_state_root (s_header a) ZERO))) /\
    d = mkDb 0 (s_genesis_time a) root root (mkCp root (h_slot (s_header a))) (mkCp root (h_slot (s_header a)))
          (mkTab (<[root := s_header s]> (t_headers t))
                 (match body with Some b => <[root := b]> (t_bodies t) | None => t_bodies t end)
                 (t_proofs t) (<[root := s]> (t_states t)) (t_diffs t)
                 (<[h_slot (s_header a) := root]> (t_roots t))
                 (<[(h_slot (s_header a), root) := h_parent (s_header a)]> (t_live t))).
  Proof.
    unfold init_store. cbn zeta. destruct (negb _) eqn:Hc; [done|].
    apply negb_false_iff, orb_true_iff in Hc as Hc'. rewrite !N.eqb_eq in Hc'.
    intros [= <-]. split; [done|]. f_equal. by destruct body.
  Qed.

  Lemma state_run_inv anchor t c w :
    s_slot anchor = h_slot (s_header anchor) ->
    state_run hash_state hash_header hash_body anchor t c w -> st_inv t c w.
  Proof.
    intros Ha Hrun. induction Hrun as
      [body d Hd|t c w sb parent c1 post t2 c2 Hrun IH b root Hhas Hget Hst Hins
      |t c w sb Hrun IH|t c w r o c' Hrun IH Hget|t c w Hrun IH|t c w c' Hrun IH Hc|t c w bodies proofs roots live Hrun IH].
    - apply init_unfold in Hd as [_ ->]. cbn [db_tab db_head].
      set (root := hash_header _). split; cbn [t_headers t_states t_diffs empty_tables].
      + intros r h H. apply lookup_insert_Some in H as [[<- <-]|[_ H]]; [done|]. by rewrite lookup_empty in H.
      + intros r s H. apply lookup_singleton_Some in H as [<- <-]. rewrite lookup_insert.
        split_and!; try done. apply sealed_anchor.
      + intros r s H. apply lookup_insert_Some in H as [[<- <-]|[_ H]]; [by rewrite lookup_singleton|].
        by rewrite lookup_empty in H.
      + intros r d H. by rewrite lookup_empty in H.
      + intros r s H. apply lookup_singleton_Some in H as [<- <-]. rewrite lookup_insert. eauto.
      + intros r s H. inversion H.
    - rewrite (has_state_spec _ _ _ _ IH) in Hhas. apply bool_decide_eq_false in Hhas.
      destruct (get_state_spec _ _ _ (b_parent b) IH) as (c1' & Hget' & Hc1).
      rewrite Hget in Hget'. injection Hget' as Hp <-.
      assert (st_inv (insert_signed_block hash_body t root sb) c1 w) as Hi.
      { eapply (st_inv_write t c1 w sb).
        - eapply st_inv_cache; [done|]. intros e He. destruct (Hc1 _ He) as [?|(s & ? & ?)]; eauto.
        - by rewrite insert_headers_row.
        - by rewrite insert_states.
        - by rewrite insert_diffs. }
      destruct (insert_state_spec _ _ _ b parent post Hi) as (t' & c' & Hok & Hi' & _); try done.
      { rewrite insert_headers_row. by rewrite lookup_insert. }
      { destruct (w !! block_root hash_header hash_body b) eqn:E; [|done]. destruct Hhas. eauto. }
      fold root in Hok. rewrite Hins in Hok. by simplify_eq.
    - eapply (st_inv_write t c w sb); [done| | |]; unfold insert_pending_block.
      + by rewrite write_headers_row.
      + by rewrite write_states.
      + by rewrite write_diffs.
    - destruct (get_state_spec _ _ _ r IH) as (c1' & Hget' & Hc1). rewrite Hget in Hget'. simplify_eq.
      eapply st_inv_cache; [done|]. intros e He. destruct (Hc1 _ He) as [?|(s & ? & ?)]; eauto.
    - eapply st_inv_cache; [done|]. intros e He. inversion He.
    - eapply st_inv_cache; [done|]. intros e He. left. by apply Hc.
    - destruct IH. by split.
  Qed.

  (** An import whose transition succeeds can always be stored. *)
  Lemma import_ok anchor t c w sb parent c1 post :
    s_slot anchor = h_slot (s_header anchor) ->
    state_run hash_state hash_header hash_body anchor t c w ->
    let b := sb_block sb in
    let root := block_root hash_header hash_body b in
    has_state t root = false -> get_state t c (b_parent b) = Ok (Some parent, c1) ->
    stf_ parent b = Ok post ->
    exists t2 c2,
      insert_state hash_header (insert_signed_block hash_body t root sb) c1 root (stored_state post b) = Ok (t2, c2).
  Proof.
    intros Ha Hrun b root Hhas Hget Hst. pose proof (state_run_inv _ _ _ _ Ha Hrun) as IH.
    rewrite (has_state_spec _ _ _ _ IH) in Hhas. apply bool_decide_eq_false in Hhas.
    destruct (get_state_spec _ _ _ (b_parent b) IH) as (c1' & Hget' & Hc1).
    rewrite Hget in Hget'. injection Hget' as Hp <-.
    assert (st_inv (insert_signed_block hash_body t root sb) c1 w) as Hi.
    { eapply (st_inv_write t c1 w sb).
      - eapply st_inv_cache; [done|]. intros e He. destruct (Hc1 _ He) as [?|(s & ? & ?)]; eauto.
      - by rewrite insert_headers_row.
      - by rewrite insert_states.
      - by rewrite insert_diffs. }
    destruct (insert_state_spec _ _ _ b parent post Hi) as (t' & c' & Hok & Hi' & _); try done.
    { rewrite insert_headers_row. by rewrite lookup_insert. }
    { destruct (w !! block_root hash_header hash_body b) eqn:E; [|done]. destruct Hhas. eauto. }
    eauto.
  Qed.
End StateProofs.
