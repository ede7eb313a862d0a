(** A node's own votes: sources along a chain, and concrete conflicting votes. *)
From Verif Require Export NodeThms4 NodeExamples Safety.
Local Open Scope N_scope.

Section Votes.
  Context (E : Env) (gt : N) (vals : list Validator).
  Context (Hgood : good_hash (e_header E)) (Hvals : lenN vals <= VALIDATOR_REGISTRY_LIMIT).

  Lemma anc_just_mono A w d a r sa sr :
    db_inv E gt vals A 0 w d -> ancestor (db_tab d) a r -> w !! a = Some sa -> w !! r = Some sr ->
    cp_slot (s_justified sa) <= cp_slot (s_justified sr).
  Proof using Hgood Hvals.
    intros Hi Han Ha. revert sr. induction Han as [h Hh|r h Hh Han IH]; intros sr Hr.
    - assert (sa = sr) as -> by congruence. lia.
    - destruct (w_header _ _ _ _ _ _ _ _ _ Hi Hr) as (Hh' & _). assert (h = s_header sr) as -> by congruence.
      destruct (decide (r = A)) as [->|Hne].
      + exfalso. (* genesis has no stored parent *)
        destruct (di_anchor _ _ _ _ _ _ _ Hi) as (sA & HA & Hs0). assert (sA = sr) as -> by congruence.
        destruct (di_chain _ _ _ _ _ _ _ Hi _ _ Hr) as (raw & bs & Hc & ->).
        assert (bs = []) as ->.
        { destruct (decide (bs = [])) as [|Hne]; [done|exfalso].
          destruct (exists_last Hne) as (bs' & b & ->). apply chain_snoc_inv in Hc as (s0 & _ & Hst).
          apply C02_block_linkage_pf in Hst as (Hl & _ & _ & _ & Hl5 & _). cbn in Hs0. lia. }
        apply chain_nil in Hc as ->. cbn in Han.
        assert (is_Some (t_headers (db_tab d) !! ZERO)) as [x Hx].
        { inversion Han; eauto. }
        rewrite (zero_header _ _ _ Hgood _ _ _ _ Hi) in Hx. done.
      + destruct (di_link _ _ _ _ _ _ _ Hi _ _ Hr Hne) as (p & b & post & Hp & Hst & ->).
        specialize (IH _ Hp). destruct (stf_mono E gt vals _ _ _ _ _ _ _ _ Hi Hp Hst) as [_ Hm].
        change (cp_slot (s_justified (stored_state post b))) with (cp_slot (s_justified post)). lia.
  Qed.

  Lemma vote_source_slot n slot a :
    reachable E gt vals n -> produce_attestation_data (nd_db n) slot = Ok a ->
    exists s, read_state (tab n) (db_head (nd_db n)) = Ok (Some s) /\
      cp_slot (ad_source a) = cp_slot (s_justified s).
  Proof using Hgood Hvals.
    intros Hr Ha. destruct (C34_produced_pf E gt vals Hgood Hvals n slot Hr)
      as (a' & hs & Ha' & _ & _ & _ & _ & s & Hs & H1 & H2).
    assert (a' = a) as -> by congruence. exists s. split; [done|].
    destruct (decide (cp_root (s_justified s) = ZERO)) as [Hz|Hz]; [by rewrite (H2 Hz)|by rewrite (H1 Hz)].
  Qed.

  Lemma C70_along_chain_pf n0 es1 n1 es2 n2 slot1 slot2 a1 a2 :
    started E (genesis (e_body E) gt vals) n0 -> node_run E n0 es1 n1 -> node_run E n1 es2 n2 ->
    ancestor (tab n2) (db_head (nd_db n1)) (db_head (nd_db n2)) ->
    produce_attestation_data (nd_db n1) slot1 = Ok a1 ->
    produce_attestation_data (nd_db n2) slot2 = Ok a2 ->
    cp_slot (ad_source a1) <= cp_slot (ad_source a2) /\ ~ surrounds a2 a1.
  Proof using Hgood Hvals.
    intros Hs Hr1 Hr2 Han Hp1 Hp2.
    assert (cp_slot (ad_source a1) <= cp_slot (ad_source a2)) as Hle; [|split; [done|intros [? _]; lia]].
    assert (valid_anchor E gt vals (genesis (e_body E) gt vals)) as Ha.
    { exists (genesis (e_body E) gt vals), []. split; [constructor|by left]. }
    destruct (started_inv E gt vals Hgood Hvals _ n0 Ha Hs) as (w & Hi & Hok).
    change (s_slot (genesis (e_body E) gt vals)) with 0 in Hi.
    destruct (run_inv E gt vals Hgood Hvals _ _ _ _ _ _ Hi Hr1) as (w1 & Hst1).
    destruct (run_inv E gt vals Hgood Hvals _ _ _ _ _ _ (so_inv _ _ _ _ _ _ _ _ _ Hst1) Hr2) as (w2 & Hst2).
    destruct (so_inv _ _ _ _ _ _ _ _ _ Hst1) as [Hi1 _]. destruct (so_inv _ _ _ _ _ _ _ _ _ Hst2) as [Hi2 _].
    destruct (di_head _ _ _ _ _ _ _ Hi1) as [s1 Hs1]. destruct (di_head _ _ _ _ _ _ _ Hi2) as [s2 Hs2].
    assert (reachable E gt vals n1) as R1 by (exists (genesis (e_body E) gt vals), n0, es1; done).
    assert (reachable E gt vals n2) as R2.
    { exists (genesis (e_body E) gt vals), n0, (es1 ++ es2). split_and!; try done. by eapply node_run_app. }
    destruct (vote_source_slot _ _ _ R1 Hp1) as (s1' & Hrd1 & ->).
    destruct (vote_source_slot _ _ _ R2 Hp2) as (s2' & Hrd2 & ->).
    unfold tab in Hrd1, Hrd2.
    rewrite (w_read _ _ _ _ _ _ _ _ _ Hi1 Hs1) in Hrd1. rewrite (w_read _ _ _ _ _ _ _ _ _ Hi2 Hs2) in Hrd2.
    assert (s1' = s1) as -> by congruence. assert (s2' = s2) as -> by congruence.
    apply (anc_just_mono _ _ _ _ _ _ _ Hi2 Han); [|done]. by apply (so_w _ _ _ _ _ _ _ _ _ Hst2).
  Qed.
End Votes.

Definition the_vote (n : Node) (slot : N) : AttestationData :=
  match produce_attestation_data (nd_db n) slot with Ok a => a | _ => mkAD 0 (mkCp 0 0) (mkCp 0 0) (mkCp 0 0) end.
Lemma the_vote_ok n slot :
  is_ok (produce_attestation_data (nd_db n) slot) = true ->
  produce_attestation_data (nd_db n) slot = Ok (the_vote n slot).
Proof. unfold the_vote. by destruct (produce_attestation_data _ _). Qed.

Lemma cp_eqb c c' : (cp_root c =? cp_root c') && (cp_slot c =? cp_slot c') = true -> c = c'.
Proof.
  intros [E1%N.eqb_eq E2%N.eqb_eq]%andb_true_iff. destruct c, c'. cbn in *. congruence.
Qed.

(** *** A surround vote after a reorg.  A2 .. A5 on B1 justify slot 1; the fork
    F6 .. F11 on B1 does not, and gets a vote. *)
Definition y2 := x_block xe xb1.2 2 [x_vote [true; true] 1 x_g_cp (x_cp xe xb1)].
Definition y3 := x_block xe y2.2 3 [].
Definition y4 := x_block xe y3.2 4 [].
Definition y5 := x_block xe y4.2 5 [].
Definition f6 := x_block xe xb1.2 6 [].
Definition f7 := x_block xe f6.2 7 [].
Definition f8 := x_block xe f7.2 8 [].
Definition f9 := x_block xe f8.2 9 [].
Definition f10 := x_block xe f9.2 10 [].
Definition f11 := x_block xe f10.2 11 [mkAtt [true] (mkAD 10 (x_cp xe f10) (x_cp xe f6) x_g_cp)].
Definition y_es1 : list node_event :=
  [ev_tick (x_at 5 1) false; ev_block (x_sb xb1); ev_block (x_sb y2); ev_block (x_sb y3);
   ev_block (x_sb y4); ev_block (x_sb y5)].
Definition y_es2 : list node_event :=
  [ev_tick (x_at 11 1) false; ev_block (x_sb f6); ev_block (x_sb f7); ev_block (x_sb f8);
   ev_block (x_sb f9); ev_block (x_sb f10); ev_block (x_sb f11)].
Definition y_n1 := x_node xe x_n0 y_es1.
Definition y_n2 := x_node xe y_n1 y_es2.
Lemma y_run1 : node_run xe x_n0 y_es1 y_n1.
Proof. apply x_node_run. vm_compute. reflexivity. Qed.
Lemma y_run2 : node_run xe y_n1 y_es2 y_n2.
Proof. apply x_node_run. vm_compute. reflexivity. Qed.
Lemma y_votes :
  produce_attestation_data (nd_db y_n1) 5 = Ok (the_vote y_n1 5) /\
  produce_attestation_data (nd_db y_n2) 11 = Ok (the_vote y_n2 11) /\
  cp_slot (ad_source (the_vote y_n1 5)) = 1 /\ cp_slot (ad_target (the_vote y_n1 5)) = 2 /\
  cp_slot (ad_source (the_vote y_n2 11)) = 0 /\ cp_slot (ad_target (the_vote y_n2 11)) = 6 /\
  validate_attestation_data (nd_db y_n1) (the_vote y_n1 5) = Ok tt /\
  validate_attestation_data (nd_db y_n2) (the_vote y_n2 11) = Ok tt.
Proof.
  split; [apply the_vote_ok; vm_compute; reflexivity|].
  split; [apply the_vote_ok; vm_compute; reflexivity|]. split_and!; vm_compute; reflexivity.
Qed.
Lemma y_surrounds : surrounds (the_vote y_n2 11) (the_vote y_n1 5).
Proof. destruct y_votes as (_ & _ & E1 & E2 & E3 & E4 & _). split; lia. Qed.

(** *** Two votes for one target without any reorg.  L4 .. L9 have no votes; L10
    justifies slot 4. *)
Definition l4 := x_block xe x_g 4 [].
Definition l6 := x_block xe l4.2 6 [].
Definition l7 := x_block xe l6.2 7 [].
Definition l8 := x_block xe l7.2 8 [].
Definition l9 := x_block xe l8.2 9 [].
Definition l10 := x_block xe l9.2 10 [x_vote [true; true] 9 x_g_cp (x_cp xe l4)].
Definition l_es1 : list node_event :=
  [ev_tick (x_at 9 1) false; ev_block (x_sb l4); ev_block (x_sb l6); ev_block (x_sb l7);
   ev_block (x_sb l8); ev_block (x_sb l9)].
Definition l_es2 : list node_event := [ev_tick (x_at 10 1) false; ev_block (x_sb l10)].
Definition l_n1 := x_node xe x_n0 l_es1.
Definition l_n2 := x_node xe l_n1 l_es2.
Lemma l_run1 : node_run xe x_n0 l_es1 l_n1.
Proof. apply x_node_run. vm_compute. reflexivity. Qed.
Lemma l_run2 : node_run xe l_n1 l_es2 l_n2.
Proof. apply x_node_run. vm_compute. reflexivity. Qed.
Lemma l_votes :
  produce_attestation_data (nd_db l_n1) 9 = Ok (the_vote l_n1 9) /\
  produce_attestation_data (nd_db l_n2) 10 = Ok (the_vote l_n2 10) /\
  ad_target (the_vote l_n1 9) = ad_target (the_vote l_n2 10) /\
  cp_slot (ad_target (the_vote l_n1 9)) = 6 /\
  cp_slot (ad_source (the_vote l_n1 9)) = 0 /\ cp_slot (ad_source (the_vote l_n2 10)) = 4.
Proof.
  split; [apply the_vote_ok; vm_compute; reflexivity|].
  split; [apply the_vote_ok; vm_compute; reflexivity|].
  split; [apply cp_eqb; vm_compute; reflexivity|]. split_and!; vm_compute; reflexivity.
Qed.
Lemma l_double : double_vote (the_vote l_n1 9) (the_vote l_n2 10).
Proof.
  destruct l_votes as (_ & _ & -> & _ & E1 & E2). split; [reflexivity|]. right.
  intros E%(f_equal cp_slot). rewrite E1, E2 in E. discriminate.
Qed.
Lemma l_ancestor : ancestor (tab l_n2) (db_head (nd_db l_n1)) (db_head (nd_db l_n2)).
Proof.
  eapply (path_ancestor _ (db_head (nd_db x_n0)) _
    (default [] (path_list 19 (tab l_n2) (db_head (nd_db x_n0)) (db_head (nd_db l_n2))))).
  - apply (path_list_sound 19). vm_compute. reflexivity.
  - apply (bool_decide_unpack _). vm_compute. exact I.
Qed.
