(** Proofs of the start-up properties: source selection and served checkpoints. *)
From Verif Require Export StartupProofs.

Section Select.
  Context (E : Env) (g : GenesisConfig).
  Notation hs := (e_state E).
  Notation hh := (e_header E).
  Notation hb := (e_body E).
  Notation go := (fetch_initial_state E g).

  Lemma from_db_own d s : finalized_state d s -> ours g s -> from_db_state g (DChain d) = Ok (Some d).
  Proof. intros Hf Ho. unfold from_db_state. rewrite Hf. apply verify_genesis_spec in Ho. by rewrite Ho. Qed.
  Lemma recent_iff now slot :
    ((now - gc_time g * 1000) / MILLISECONDS_PER_SLOT - slot <=? MAX_RESUMABLE_DB_STATE_AGE) = true <-> recent g now slot.
  Proof.
    unfold recent. change MILLISECONDS_PER_SLOT with 4000. change MAX_RESUMABLE_DB_STATE_AGE with 450.
    rewrite N.leb_le, (N.mul_comm 1000). generalize ((now - gc_time g * 1000) / 4000). lia.
  Qed.

  Lemma C51_resume_pf urls now net d s slot :
    finalized_state d s -> ours g s -> has_slot (db_tab d) (db_head d) slot -> recent g now slot \/ urls = O ->
    go urls now net (DChain d) = (DChain d, Ok (start_node d)).
  Proof.
    intros Hf Ho (h & Hh & <-) Hc. unfold fetch_initial_state. rewrite (from_db_own _ _ Hf Ho), Hh.
    pose proof (recent_iff now (h_slot h)) as Hr. destruct (_ <=? _); [done|].
    destruct Hc as [Hc| ->]; [|done]. by apply Hr in Hc.
  Qed.
  Lemma C51_foreign_pf urls now net d s :
    finalized_state d s -> ~ ours g s -> exists e, go urls now net (DChain d) = (DChain d, Err e).
  Proof.
    intros Hf Ho. unfold fetch_initial_state, from_db_state. rewrite Hf.
    destruct (verify_state_genesis s (gc_time g) (gc_validators g)) as [[]|m|] eqn:Hv.
    - by apply verify_genesis_spec in Hv.
    - eauto.
    - by apply verify_genesis_total in Hv.
  Qed.
  Lemma C51_missing_pf urls now net d :
    read_state (db_tab d) (cp_root (db_fin d)) = Ok None -> exists e, go urls now net (DChain d) = (DChain d, Err e).
  Proof. intros Hf. unfold fetch_initial_state, from_db_state. rewrite Hf. eauto. Qed.

  Lemma go_unusable urls now net k : unusable_disk g now k ->
    (exists t, k = DNew t) \/ urls <> O -> go urls now net k = init_anchor E g urls net k.
  Proof.
    intros Hk Hu. unfold fetch_initial_state. destruct k as [t|d]; [done|]. destruct Hk as (s & slot & Hf & Ho & (h & Hh & <-) & Hr).
    rewrite (from_db_own _ _ Hf Ho), Hh. pose proof (recent_iff now (h_slot h)) as Hr'.
    destruct (_ <=? _); [exfalso; by apply Hr, Hr'|]. destruct urls; [by destruct Hu as [[? ?]|]|done].
  Qed.
  Lemma C51_genesis_pf now net t :
    exists d, from_anchor_state hs hh t (genesis hb (gc_time g) (gc_validators g)) = Ok d /\
      go O now net (DNew t) = (DChain d, Ok (start_node d)).
  Proof.
    rewrite go_unusable by (done || eauto). unfold init_anchor. cbn [disk_tables]. unfold from_anchor_state, init_store. cbn. eauto.
  Qed.
  Lemma C51_checkpoint_pf urls now net k pair : urls <> O -> unusable_disk g now k -> first_yield E g urls net pair ->
    exists d, get_forkchoice_store hs hh hb (disk_tables k) pair.1 (sb_block pair.2) = Ok d /\
      let n := insert_anchor E (start_node d) pair.2 in
      go urls now net k = (DChain (nd_db n), Ok n).
  Proof.
    intros Hu Hk Hy. rewrite go_unusable by auto. unfold init_anchor. destruct urls as [|u]; [done|].
    pose proof Hy as Hy'. apply C51_urls_ok_pf in Hy as ->. destruct pair as [s sb]. cbn [fst snd].
    destruct Hy' as (r & p & _ & _ & (q & _ & (_ & _ & Ha) & _) & _). cbn [fst snd] in Ha.
    apply (C27_accepts_iff_pf hs hh hb (disk_tables k)) in Ha as [d Hd]. exists d. by rewrite Hd.
  Qed.
  Lemma C51_none_pf urls now net k : urls <> O -> unusable_disk g now k -> no_yield E g urls net ->
    exists e, go urls now net k = (k, Err e).
  Proof.
    intros Hu Hk Hy. rewrite go_unusable by auto. unfold init_anchor. destruct urls as [|u]; [done|].
    apply C51_urls_err_pf in Hy as [e ->]. eauto.
  Qed.
End Select.

Section Honest.
  Context (E : Env) (g : GenesisConfig).
  Notation hs := (e_state E).
  Notation hh := (e_header E).
  Notation hb := (e_body E).
  Notation gt := (gc_time g).
  Notation vals := (gc_validators g).

  Lemma chain_own s bs : chain hs hh hb gt vals s bs -> ours g s.
  Proof.
    intros Hc. pose proof (chain_has_facts _ _ _ _ _ _ _ Hc) as Hf. apply ours_iff.
    split; [apply (cf_gt _ _ _ _ _ _ _ Hf)|apply (cf_vals _ _ _ _ _ _ _ Hf)].
  Qed.
  Lemma C50_honest_pf s bs a : chain hs hh hb gt vals s bs -> bs <> [] ->
    a = s \/ a = with_header s (filled_header hs s) -> usable E g a.
  Proof.
    intros Hc Hne Ha.
    assert (usable E g s /\ cp_slot (s_justified s) < h_slot (s_header s)) as [Hu Hlt].
    { pose proof (chain_has_facts _ _ _ _ _ _ _ Hc) as Hf.
      destruct (chain_order _ _ _ _ _ _ _ Hc) as [H1 H2]. pose proof (cf_slot _ _ _ _ _ _ _ Hf) as Hs.
      destruct (cf_case _ _ _ _ _ _ _ Hf) as [[-> _]|(Hpos & _ & _)]; [done|].
      destruct (chain_checkpoints _ _ _ _ _ _ _ Hc Hne) as (_ & _ & HF & HJ & _).
      split; [|lia]. split_and!; [lia| |by eapply chain_own|].
      - intros He. destruct bs as [|b0 bs _] using rev_ind; [done|].
        apply chain_snoc_inv in Hc as (s0 & Hc0 & Hst).
        pose proof (C01_only_proposer_accepted_pf _ _ _ _ _ _ Hst) as Hp.
        pose proof (chain_has_facts _ _ _ _ _ _ _ Hc0) as Hf0. rewrite (cf_vals _ _ _ _ _ _ _ Hf0) in Hp.
        apply C01_proposer_schedule_pf in Hp as [Hp _]. unfold lenN in Hp. rewrite gc_len, He in Hp. done.
      - split; try lia. intros Heq. rewrite Heq, HF in HJ. by injection HJ. }
    destruct Ha as [-> | ->]; [done|]. destruct Hu as (H1 & H2 & H3 & [C1 C2 C3 C4 C5 C6]).
    assert (h_slot (filled_header hs s) = h_slot (s_header s)) as Hh by (unfold filled_header; by destruct (_ =? _)).
    split_and!; [done|done|done|]. split; cbn; rewrite ?Hh; try done; lia.
  Qed.
End Honest.

Section Served.
  Context (E : Env) (g : GenesisConfig).
  Context (Hgood : good_hash (e_header E)).
  Notation hs := (e_state E).
  Notation hh := (e_header E).
  Notation hb := (e_body E).
  Notation gt := (gc_time g).
  Notation vals := (gc_validators g).
  Context (Hvals : lenN vals <= VALIDATOR_REGISTRY_LIMIT).
  Notation root_ := (block_root (e_header E) (e_body E)).
  Notation node_inv := (node_inv E gt vals).
  Notation db_inv := (db_inv E gt vals).

  (** Bodies match headers, the anchor's included; no header is under the zero root. *)
  Lemma start_rows a n : started E a n -> rows_ok E ZERO (tab n).
  Proof.
    intros (d & Hd). assert (rows_ok E ZERO (db_tab d)) as H.
    { destruct Hd as [[Hd _]|(sb & Hd & _)].
      - apply init_unfold in Hd as [_ ->]. intros r h body _. cbn. intros Hh.
        destruct (N.eqb_spec (h_body_root h) (EMPTY_BODY_ROOT hb)) as [He|]; [intros [= <-]; by rewrite He|by rewrite lookup_empty].
      - unfold get_forkchoice_store in Hd. destruct (anchor_pair_is_consistent _ _ _ _) eqn:Hc; [|done].
        apply consistent_iff in Hc as (_ & _ & _ & Hb & _). apply init_unfold in Hd as [_ ->].
        intros r h body _. cbn. intros [[<- <-]|[_ Hh]]%lookup_insert_Some; [|by rewrite lookup_empty in Hh].
        cbn. rewrite lookup_insert.
        destruct (N.eqb_spec (h_body_root (s_header a)) (EMPTY_BODY_ROOT hb)) as [He|]; intros [= <-]; [by rewrite He|done]. }
    destruct Hd as [[_ ->]|(sb & _ & [-> | ->])]; [done|done|].
    unfold tab. cbn [insert_anchor start_node nd_db]. unfold import_block. cbn [db_tab with_tab].
    unfold insert_signed_block. eapply rows_same; [| |apply rows_write, H]; done.
  Qed.
  Lemma run_rows A As w n es n' : node_inv A As w n -> rows_ok E ZERO (tab n) -> node_run E n es n' -> rows_ok E ZERO (tab n').
  Proof.
    intros Hi Hk Hr. induction Hr as [|es n1 e n2 Hr IH Hs]; [done|].
    destruct (run_inv E gt vals Hgood Hvals _ _ _ _ _ _ Hi Hr) as (w1 & Ho).
    eapply (rows_step E gt vals Hgood Hvals); [apply Ho|exact IH|exact Hs].
  Qed.

  (** The body and proof rows of states at or above slot [F]. *)
  Definition has_rows (t : Tables) (r : H256) (s : State) : Prop :=
    is_Some (if h_body_root (s_header s) =? EMPTY_BODY_ROOT hb then Some [] else t_bodies t !! r) /\
    is_Some (t_proofs t !! (s_slot s, r)).
  Definition held (F : N) (A : H256) (flag : Prop) (w : gmap H256 State) (t : Tables) : Prop :=
    forall r s, w !! r = Some s -> F <= s_slot s -> r <> A \/ flag -> has_rows t r s.
  Lemma has_rows_same t t' r s : same_rows t t' -> has_rows t r s -> has_rows t' r s.
  Proof. intros (H1 & H2 & H3). unfold has_rows. by rewrite H2, H3. Qed.
  Lemma has_rows_write t sb r s : has_rows t r s -> has_rows (write_signed_block hb t (root_ (sb_block sb)) sb) r s.
  Proof.
    intros [H1 H2]. unfold has_rows, write_signed_block. cbn. split.
    - destruct (_ =? _); [done|]. destruct (_ =? _); [done|]. cbn.
      destruct (decide (root_ (sb_block sb) = r)) as [-> |Hne]; [by rewrite lookup_insert|by rewrite lookup_insert_ne].
    - assert (forall m : gmap (N * H256) N, is_Some (m !! (s_slot s, r)) ->
        is_Some (<[(b_slot (sb_block sb), root_ (sb_block sb)) := sb_proof sb]> m !! (s_slot s, r))) as Hm.
      { intros m Hm. destruct (decide ((b_slot (sb_block sb), root_ (sb_block sb)) = (s_slot s, r))) as [-> |Hne];
          [by rewrite lookup_insert|by rewrite lookup_insert_ne]. }
      apply Hm. destruct (hb (b_atts (sb_block sb)) =? EMPTY_BODY_ROOT hb); exact H2.
  Qed.
  Lemma has_rows_new t sb s : s_header s = header_of hb (sb_block sb) -> s_slot s = b_slot (sb_block sb) ->
    has_rows (write_signed_block hb t (root_ (sb_block sb)) sb) (root_ (sb_block sb)) s.
  Proof.
    intros Hh Hs. unfold has_rows, write_signed_block. rewrite Hh, Hs. cbn. split.
    - destruct (_ =? _); [done|]. cbn. by rewrite lookup_insert.
    - destruct (_ =? _); cbn; by rewrite lookup_insert.
  Qed.
  Lemma held_step F A As flag w n e n' : node_inv A As w n -> held F A flag w (tab n) -> cp_slot (db_fin (nd_db n)) <= F ->
    node_step E n e = Ok n' -> exists w', step_ok E gt vals A As w w' n n' /\ held F A flag w' (tab n').
  Proof.
    intros Hn Hk HF Hs. destruct (node_step_detail E gt vals Hgood Hvals _ _ _ _ _ _ Hn Hs) as (w' & Hst & _ & Hd).
    exists w'. split; [done|]. intros r s Hr HFs Hf.
    destruct e as [sb|sb|ts hp|sa agg|sg|l keys|slot| |]; cbn in Hd;
      try (destruct Hd as (-> & Hd); eapply has_rows_same; [exact Hd|]; by apply Hk).
    - destruct Hd as [[-> ->]|(p & post & Hnone & Hpar & Hst' & Hon & -> & Hrows)]; [by apply Hk|].
      eapply has_rows_same; [exact Hrows|]. apply lookup_insert_Some in Hr as [[<- <-]|[Hne Hr]].
      + destruct (C02_block_linkage_pf _ _ _ _ _ _ Hst') as (_ & _ & _ & _ & Hsl & Hh & _).
        apply has_rows_new; [|done]. unfold stored_state. cbn. rewrite Hh. done.
      + apply has_rows_write. by apply Hk.
    - destruct Hd as (-> & _ & [-> |Htab]); [by apply Hk|]. rewrite Htab. apply has_rows_write. by apply Hk.
    - destruct Hd as (-> & H1 & H2 & _ & H3). destruct (Hk _ _ Hr HFs Hf) as [Hb [p Hp]]. split; [by rewrite H2|].
      destruct (H3 _ _ Hp) as [?|[Hlt _]]; [eauto|]. cbn in Hlt. lia.
  Qed.
  Lemma held_run F A As flag w n es n' : node_inv A As w n -> held F A flag w (tab n) ->
    node_run E n es n' -> (forall es1 n1, es1 `prefix_of` es -> node_run E n es1 n1 -> cp_slot (db_fin (nd_db n1)) <= F) ->
    exists w', step_ok E gt vals A As w w' n n' /\ held F A flag w' (tab n').
  Proof.
    intros Hi Hk Hr. induction Hr as [|es n1 e n2 Hr IH Hs]; intros HF.
    - exists w. split; [by apply step_refl|done].
    - destruct IH as (w1 & Ho & Hk1); [intros es1 m Hp; apply HF; by apply prefix_app_r|].
      destruct (held_step F _ _ flag _ _ e n2 (so_inv _ _ _ _ _ _ _ _ _ Ho) Hk1) as (w2 & Ho2 & Hk2); [|done|].
      { apply (HF es n1); [by apply prefix_app_r|done]. }
      exists w2. split; [|done]. by eapply step_trans.
  Qed.

  (** The finalized state of a reachable node. *)
  Lemma fin_raw A As w n : node_inv A As w n -> cp_slot (db_fin (nd_db n)) <> 0 ->
    exists raw bs, chain hs hh hb gt vals raw bs /\ bs <> [] /\ s_slot raw = cp_slot (db_fin (nd_db n)) /\
      w !! cp_root (db_fin (nd_db n)) = Some (with_header raw (set_state_root (s_header raw) (hs raw))) /\
      h_state_root (s_header raw) = ZERO.
  Proof.
    intros [Hi _] Hf. destruct (di_fin _ _ _ _ _ _ _ Hi) as (s & Hw & Hs).
    destruct (di_chain _ _ _ _ _ _ _ Hi _ _ Hw) as (raw & bs & Hc & ->).
    pose proof (chain_has_facts _ _ _ _ _ _ _ Hc) as Hcf. pose proof (cf_sr _ _ _ _ _ _ _ Hcf) as Hz.
    exists raw, bs. split_and!; try done.
    - intros ->. apply chain_nil in Hc as ->. by rewrite <- Hs in Hf.
    - rewrite Hw. unfold NodeProofs.seal, filled_header. by rewrite Hz, N.eqb_refl.
  Qed.
  Lemma zero_header (s : State) r : h_state_root (s_header s) = ZERO ->
    set_state_root (set_state_root (s_header s) r) ZERO = s_header s.
  Proof. destruct s as [? ? []]. cbn. by intros ->. Qed.
  Lemma with_header_same (s : State) : with_header s (s_header s) = s.
  Proof. by destruct s. Qed.

  Lemma C63_pair_pf n : reachable E gt vals n -> cp_slot (db_fin (nd_db n)) <> 0 ->
    exists s, serve_finalized_state n = Ok s /\ usable E g s /\ valid_anchor E gt vals s /\
      s_slot s = cp_slot (db_fin (nd_db n)) /\
      forall sb, serve_finalized_block E n = Some sb ->
        root_ (sb_block sb) = cp_root (db_fin (nd_db n)) /\ anchor_matches hs hb s (sb_block sb).
  Proof.
    intros (a & n0 & es & Ha & Hst & Hr) Hf.
    destruct (started_inv E gt vals Hgood Hvals _ _ Ha Hst) as (w0 & Hi0 & _).
    destruct (run_inv E gt vals Hgood Hvals _ _ _ _ _ _ Hi0 Hr) as (w & Ho). pose proof (so_inv _ _ _ _ _ _ _ _ _ Ho) as Hi.
    destruct (fin_raw _ _ _ _ Hi Hf) as (raw & bs & Hc & Hne & Hs & Hw & Hz).
    pose proof (w_read _ _ _ _ _ _ _ _ _ (proj1 Hi) Hw) as Hread.
    exists raw. split_and!.
    - unfold serve_finalized_state. unfold tab in *. rewrite Hread. cbn. f_equal.
      rewrite zero_header by done. by destruct raw.
    - by eapply C50_honest_pf; [exact Hc|exact Hne|left].
    - exists raw, bs. split; [done|by left].
    - done.
    - intros sb Hsb. unfold serve_finalized_block in Hsb.
      assert (rows_ok E ZERO (tab n)) as Hk.
      { eapply run_rows; [exact Hi0| |exact Hr]. by eapply start_rows. }
      destruct (w_header _ _ _ _ _ _ _ _ _ (proj1 Hi) Hw) as (Hh & _).
      pose proof (si_hash _ _ _ _ _ (di_st _ _ _ _ _ _ _ (proj1 Hi)) _ _ Hh) as Hhash.
      assert (cp_root (db_fin (nd_db n)) <> ZERO) as Hnz by (rewrite <- Hhash; apply Hgood).
      assert (root_ (sb_block sb) = cp_root (db_fin (nd_db n))) as Hroot.
      { eapply signed_root; [exact Hk| |exact Hnz|exact Hsb].
        intros r h. apply (si_hash _ _ _ _ _ (di_st _ _ _ _ _ _ _ (proj1 Hi))). }
      split; [done|]. rewrite <- Hhash in Hroot. unfold block_root in Hroot. apply (proj1 Hgood) in Hroot.
      cbn in Hroot. unfold anchor_matches. destruct (sb_block sb) as [b1 b2 b3 b4 b5]. unfold header_of in Hroot. cbn in *.
      destruct raw as [r1 r2 [h1 h2 h3 h4 h5] r4 r5 r6 r7 r8 r9 r10]. cbn in *. unfold set_state_root in Hroot. cbn in *.
      injection Hroot as -> -> -> Hsr ->. subst h4. unfold zeroed, with_header, set_state_root. cbn. split_and!; try done; by left.
  Qed.

  Lemma C63_served_pf a n0 es n : valid_anchor E gt vals a -> started E a n0 -> node_run E n0 es n ->
    (forall es1 n1, es1 `prefix_of` es -> node_run E n0 es1 n1 -> cp_slot (db_fin (nd_db n1)) <= cp_slot (db_fin (nd_db n))) ->
    (exists d sb, get_forkchoice_store hs hh hb empty_tables a (sb_block sb) = Ok d /\ n0 = insert_anchor E (start_node d) sb) \/
      s_slot a < cp_slot (db_fin (nd_db n)) ->
    is_Some (serve_finalized_block E n).
  Proof.
    intros Ha Hst Hr Hmax Hor. destruct (started_facts E gt vals Hgood Hvals _ _ Ha Hst) as (Hi0 & _ & _ & _).
    set (A := db_head (nd_db n0)) in *. set (w0 := {[A := _]}) in *.
    set (flag := exists d sb, get_forkchoice_store hs hh hb empty_tables a (sb_block sb) = Ok d /\ n0 = insert_anchor E (start_node d) sb) in *.
    destruct (held_run (cp_slot (db_fin (nd_db n))) A (s_slot a) flag w0 n0 es n Hi0) as (w & Ho & Hk); [|done|done|].
    { intros r s Hw HF [Hne|(d & sb & Hg & Hn0)]; unfold w0 in Hw; apply lookup_singleton_Some in Hw as [<- <-]; [done|].
      pose proof Hg as Hg'. apply C27_anchor_store_pf in Hg as (Eh & _). rewrite Hn0.
      unfold tab, insert_anchor, import_block. cbn [nd_db db_tab with_tab start_node]. unfold insert_signed_block.
      assert (A = root_ (sb_block sb)) as HA.
      { unfold A. rewrite Hn0. cbn. exact Eh. }
      rewrite HA. eapply has_rows_same; [|apply has_rows_new]; [done| |].
      - unfold get_forkchoice_store in Hg'. destruct (anchor_pair_is_consistent _ _ _ _) eqn:Hc; [|done].
        apply consistent_iff in Hc as (H1 & H2 & H3 & H4 & _ & H6). unfold stored_anchor. cbn.
        unfold header_of. destruct (s_header a) eqn:Hha. unfold set_state_root in *. cbn in *.
        unfold zeroed in H6. rewrite Hha in H6. unfold set_state_root in H6. cbn in H6. congruence.
      - unfold get_forkchoice_store in Hg'. destruct (anchor_pair_is_consistent _ _ _ _) eqn:Hc; [|done].
        apply consistent_iff in Hc as (H1 & _). rewrite <- H1.
        pose proof Hi0 as [Hdi _]. destruct (w_header _ _ _ _ _ _ _ A (stored_anchor hs a) Hdi) as (_ & Hsl & _).
        { unfold w0. by rewrite lookup_singleton. }
        exact Hsl. }
    pose proof (so_inv _ _ _ _ _ _ _ _ _ Ho) as Hi.
    destruct (di_fin _ _ _ _ _ _ _ (proj1 Hi)) as (s & Hw & Hs).
    destruct (w_header _ _ _ _ _ _ _ _ _ (proj1 Hi) Hw) as (Hh & Hsl & _).
    destruct (Hk _ _ Hw) as [Hb [p Hp]]; [lia| |].
    { destruct Hor as [Hfl|Hlt]; [by right|]. left. intros Heq. destruct (di_anchor _ _ _ _ _ _ _ (proj1 Hi)) as (sA & HA & HAs).
      rewrite Heq in Hw. rewrite HA in Hw. injection Hw as <-. lia. }
    unfold serve_finalized_block, get_signed_block. unfold tab in *. rewrite Hh.
    destruct (if h_body_root _ =? _ then _ else _) as [body|]; [|by destruct Hb]. rewrite <- Hsl, Hp. eauto.
  Qed.

  (** A node that joins through reachable nodes is reachable. *)
  Lemma C63_join_pf urls now net k n :
    (forall r p q s, (net r p q).1 = Some s -> exists m, reachable E gt vals m /\ serve_finalized_state m = Ok s) ->
    fetch_initial_state E g urls now net (DNew empty_tables) = (k, Ok n) -> reachable E gt vals n /\ k = DChain (nd_db n).
  Proof.
    intros Hnet. destruct urls as [|u].
    - destruct (C51_genesis_pf E g now net empty_tables) as (d & Hd & ->). intros [= <- <-]. split; [|done].
      exists (genesis hb gt vals), (start_node d), []. split_and!; [|exists d; by left|constructor].
      exists (genesis hb gt vals), []. split; [constructor|by left].
    - rewrite go_unusable by (done || eauto). unfold init_anchor.
      destruct (fetch_anchor_with_retry E gt vals net (S u)) as [[s sb]|e|] eqn:Hf; [|done|done].
      apply C51_urls_ok_pf in Hf as (r & p & _ & _ & (q & _ & (Hx & Hu & Ham) & _) & _). cbn [fst snd] in *.
      destruct (get_forkchoice_store _ _ _ _ _ _) as [d|e|] eqn:Hg; [|done|done]. intros [= <- <-]. split; [|done].
      destruct (Hnet r p q s) as (m & Hm & Hserve); [by rewrite Hx|].
      exists s, (insert_anchor E (start_node d) sb), []. split_and!; [|exists d; right; exists sb; split; [done|by right]|constructor].
      destruct (decide (cp_slot (db_fin (nd_db m)) = 0)) as [H0|H0].
      + (* a served genesis state is not usable *)
        exfalso. destruct Hm as (a & n0 & es & Ha & Hst & Hr).
        destruct (started_inv E gt vals Hgood Hvals _ _ Ha Hst) as (w0 & Hi0 & _).
        destruct (run_inv E gt vals Hgood Hvals _ _ _ _ _ _ Hi0 Hr) as (w & Ho). pose proof (so_inv _ _ _ _ _ _ _ _ _ Ho) as Hi.
        destruct (di_fin _ _ _ _ _ _ _ (proj1 Hi)) as (s' & Hw & Hs'). pose proof (w_read _ _ _ _ _ _ _ _ _ (proj1 Hi) Hw) as Hread.
        unfold serve_finalized_state, tab in Hserve. rewrite Hread in Hserve. injection Hserve as <-.
        destruct Hu as (Hu & _). cbn in Hu. lia.
      + destruct (C63_pair_pf m Hm H0) as (s' & Hs' & _ & Hv & _). rewrite Hs' in Hserve. by injection Hserve as ->.
  Qed.
End Served.
