(** Served blocks: proofs. *)
From Coq Require Import Ascii String.
From Verif Require Export ServeSpec ActorAll ActorLost.
From Verif Require Import InjHash.
Local Open Scope N_scope.

Section Served.
  Context (E : Env) (gt : N) (vals : list Validator).
  Context (Hgood : good_hash (e_header E)) (Hvals : lenN vals <= VALIDATOR_REGISTRY_LIMIT).
  Notation hs := (e_state E).
  Notation hh := (e_header E).
  Notation hb := (e_body E).
  Notation root_ := (block_root hh hb).
  Notation reach := (reachable E gt vals).
  Notation node_inv := (node_inv E gt vals).
  Notation db_inv := (db_inv E gt vals).
  Notation chain_ := (chain hs hh hb gt vals).

  Lemma start_rows a n0 B : valid_anchor E gt vals a -> started E a n0 -> rows_ok E B (tab n0).
  Proof using.
    clear Hgood Hvals. intros Ha (d & Hd).
    assert (forall b, get_forkchoice_store hs hh hb empty_tables a b = Ok d -> rows_ok E B (db_tab d)) as Hfc.
    { intros b Hg. unfold get_forkchoice_store in Hg. destruct (anchor_pair_is_consistent _ _ _ _) eqn:Hc; [|done].
      apply pair_consistent_iff in Hc as (H1 & H2 & H3 & H4 & H5 & H6).
      apply init_unfold in Hg as [_ ->]. cbn [db_tab].
      assert (s_header (stored_anchor hs a) = header_of hb b) as Hh.
      { unfold stored_anchor, header_of, zeroed, set_state_root in *. cbn in *. congruence. }
      rewrite Hh. intros r h body _ Hr. cbn [t_headers empty_tables] in Hr.
      apply lookup_insert_Some in Hr as [[<- <-]|[_ Hr]]; [|by rewrite lookup_empty in Hr].
      cbn [t_bodies]. rewrite lookup_insert. cbn [header_of h_body_root].
      destruct (N.eqb_spec (hb (b_atts b)) (EMPTY_BODY_ROOT hb)) as [He|He]; intros [= <-]; done. }
    destruct Hd as [[Hd ->]|(sb & Hg & [->| ->])].
    - unfold from_anchor_state in Hd. apply init_unfold in Hd as [_ ->]. cbn.
      intros r h body _ Hr. cbn in Hr. apply lookup_insert_Some in Hr as [[<- <-]|[_ Hr]]; [|by rewrite lookup_empty in Hr].
      match goal with |- context [if ?x =? ?y then _ else _] => destruct (N.eqb_spec x y) as [He|He] end;
        [intros [= <-]; symmetry; exact He|cbn; by rewrite lookup_empty].
    - by eapply Hfc.
    - unfold tab. cbn [insert_anchor nd_db start_node import_block db_tab with_tab].
      unfold insert_signed_block. eapply rows_same; [| |apply rows_write; exact (Hfc _ Hg)]; done.
  Qed.

  Record served (A : H256) (As : N) (n : Node) : Prop := {
    sv_inv : exists w, node_inv A As w n /\ kept E A As w n;
    sv_rows : forall B, rows_ok E B (tab n) }.
  Lemma run_served a n0 es n : valid_anchor E gt vals a -> started E a n0 -> node_run E n0 es n ->
    served (db_head (nd_db n0)) (s_slot a) n.
  Proof.
    intros Ha Hst Hr. destruct (started_facts E gt vals Hgood Hvals _ _ Ha Hst) as (Hn0 & _ & Hone & _).
    induction Hr as [|es n1 e n2 Hr IH Hs].
    - split; [|intros B; by eapply start_rows]. eexists. split; [exact Hn0|]. pose proof (proj1 Hn0) as Hi0. split.
      + intros r' s Hr'. apply lookup_singleton_Some in Hr' as [<- <-].
        destruct (di_anchor _ _ _ _ _ _ _ Hi0) as (sA & HA & HAs). rewrite lookup_singleton in HA.
        injection HA as <-. lia.
      + intros r' h' Hh' _. left. by apply (Hone _ _ Hh').
    - destruct IH as [(w & Hn & Hk) Hrows].
      destruct (kept_step E gt vals Hgood Hvals _ _ _ _ _ _ Hn Hk Hs) as (w' & Hok & Hk').
      split; [exists w'; split; [apply Hok|done]|]. intros B. by eapply rows_step.
  Qed.
  Lemma reach_served n : reach n -> exists A As, served A As n.
  Proof. intros (a & n0 & es & Ha & Hst & Hr). eexists _, _. by eapply run_served. Qed.

  (** *** What is read under a root is the block of that root *)
  Lemma served_root n r sb : reach n -> get_signed_block hb (tab n) r = Some sb -> root_ (sb_block sb) = r.
  Proof.
    intros Hr Hg. destruct (reach_served _ Hr) as (A & As & [(w & [Hi _] & _) Hrows]).
    apply (signed_root E (r + 1) (tab n)); [apply Hrows| |lia|done].
    exact (si_hash _ _ _ _ _ (di_st _ _ _ _ _ _ _ Hi)).
  Qed.
  Lemma block_of_signed t r sb : get_signed_block hb t r = Some sb -> get_block hb t r = Some (sb_block sb).
  Proof using.
    clear Hgood Hvals. unfold get_signed_block, get_block. destruct (t_headers t !! r) as [h|]; [|done].
    destruct (_ =? _).
    - destruct (t_proofs t !! _); [by intros [= <-]|]. destruct (_ =? _); [|done]. by intros [= <-].
    - destruct (t_bodies t !! r); [|done]. destruct (t_proofs t !! _); [by intros [= <-]|]. destruct (_ =? _); [|done]. by intros [= <-].
  Qed.
  Lemma signed_slot t r sb : get_signed_block hb t r = Some sb -> b_slot (sb_block sb) = slot_of t r.
  Proof using.
    clear Hgood Hvals. unfold get_signed_block, slot_of. destruct (t_headers t !! r) as [h|]; [|done].
    destruct (if _ =? _ then _ else _); [|done].
    destruct (t_proofs t !! _); [by intros [= <-]|]. destruct (_ =? _); [|done]. by intros [= <-].
  Qed.
  Lemma read_root n r b : reach n -> get_block hb (tab n) r = Some b -> root_ b = r.
  Proof.
    intros Hr Hg. destruct (reach_served _ Hr) as (A & As & [(w & [Hi _] & _) Hrows]).
    unfold get_block in Hg. destruct (t_headers (tab n) !! r) as [h|] eqn:Hh; [|done].
    rewrite <- (si_hash _ _ _ _ _ (di_st _ _ _ _ _ _ _ Hi) _ _ Hh).
    assert (exists body, b = from_header_and_body h body /\ hb body = h_body_root h) as (body & -> & Hb).
    { destruct (h_body_root h =? EMPTY_BODY_ROOT hb) eqn:He.
      - injection Hg as <-. eexists. split; [done|]. apply (Hrows (r + 1) r h); [lia|done|]. by rewrite He.
      - destruct (t_bodies (tab n) !! r) as [body|] eqn:Hb; [|done]. injection Hg as <-. eexists. split; [done|].
        apply (Hrows (r + 1) r h); [lia|done|]. by rewrite He. }
    unfold block_root. f_equal. destruct h. unfold header_of, from_header_and_body. cbn in *. by rewrite Hb.
  Qed.

  (** *** The chain of the head *)
  Lemma anchor_parent A As w d h : db_inv A As w d -> t_headers (db_tab d) !! A = Some h ->
    t_headers (db_tab d) !! h_parent h = None.
  Proof.
    intros Hi Hh. destruct (t_headers (db_tab d) !! h_parent h) as [hp|] eqn:Hp; [exfalso|done].
    destruct (di_anchor _ _ _ _ _ _ _ Hi) as (s & Hw & HAs).
    destruct (w_header _ _ _ _ _ _ _ _ _ Hi Hw) as (Hh' & Hsl & _). rewrite Hh in Hh'. injection Hh' as ->.
    destruct (di_chain _ _ _ _ _ _ _ Hi _ _ Hw) as (raw & bs & Hc & ->).
    destruct bs as [|b bs _] using rev_ind.
    - apply chain_nil in Hc as ->. cbn in Hp.
      assert (h_parent (filled_header hs (genesis hb gt vals)) = ZERO) as Hz by (unfold filled_header; by destruct (_ =? _)).
      rewrite Hz in Hp. rewrite (zero_header E gt vals Hgood _ _ _ _ Hi) in Hp. done.
    - apply chain_snoc_inv in Hc as (s0 & Hc & Hst).
      pose proof (C02_block_linkage_pf _ _ _ _ _ _ Hst) as (H1 & H2 & H3 & H4 & H5 & H6 & _).
      assert (h_parent (s_header (NodeProofs.seal E raw)) = hh (filled_header hs s0)) as Hpar.
      { cbn. unfold filled_header at 1. destruct (_ =? _); cbn; by rewrite H6. }
      rewrite Hpar in Hp. pose proof (si_hash _ _ _ _ _ (di_st _ _ _ _ _ _ _ Hi) _ _ Hp) as Hhp.
      apply (proj1 Hgood) in Hhp as ->.
      assert (h_slot (filled_header hs s0) < As) as Hlt.
      { rewrite <- HAs. cbn. rewrite H5. unfold filled_header. destruct (_ =? _); cbn; lia. }
      destruct (di_headers _ _ _ _ _ _ _ Hi _ _ Hp) as [HA|HA]; [|lia].
      assert (Some (filled_header hs s0) = Some (s_header (NodeProofs.seal E raw))) as Heq by (by rewrite <- Hp, HA, <- Hh).
      apply (inj Some), (f_equal h_slot) in Heq. lia.
  Qed.

  Lemma anc_in_path A As w d r l x : db_inv A As w d -> path (db_tab d) A r l -> ancestor (db_tab d) x r -> x ∈ l.
  Proof.
    intros Hi Hp. induction Hp as [h Hh|r h l Hne Hh Hp IH]; intros Ha.
    - inversion Ha as [h' Hh'|r' h' Hh' Ha']; subst; [left|]. rewrite Hh in Hh'. injection Hh' as <-.
      apply ancestor_stored in Ha' as [hp Hhp]. by rewrite (anchor_parent _ _ _ _ _ Hi Hh) in Hhp.
    - inversion Ha as [h' Hh'|r' h' Hh' Ha']; subst; [left|]. rewrite Hh in Hh'. injection Hh' as <-. right. by apply IH.
  Qed.
  Lemma hist_path A As w d r l s x : db_inv A As w d -> path (db_tab d) A r l -> w !! r = Some s -> x ∈ l -> x <> r ->
    root_at s (slot_of (db_tab d) x) = Some x.
  Proof.
    intros Hi Hp. revert s. induction Hp as [h Hh|r h l Hne Hh Hp IH]; intros s Hw Hx Hxr.
    { apply elem_of_list_singleton in Hx. done. }
    apply elem_of_cons in Hx as [Hx|Hx]; [done|].
    destruct (di_link _ _ _ _ _ _ _ Hi _ _ Hw Hne) as (p & b & post & Hwp & Hst & ->).
    destruct (w_header _ _ _ _ _ _ _ _ _ Hi Hw) as (Hh' & _). rewrite Hh in Hh'. injection Hh' as ->.
    destruct (w_chain_facts _ _ _ Hgood _ _ _ _ _ _ Hi Hwp) as (Hlen & Hse & Hsl & _).
    destruct (stored_facts hs hh hb _ _ _ Hst Hse Hsl) as (F1 & F2 & F3 & F4 & F5 & _).
    unfold root_at. rewrite F5. unfold lenN in Hlen.
    assert (h_parent (s_header (stored_state post b)) = b_parent b) as Hpar by (by rewrite F1).
    destruct (decide (x = h_parent (s_header (stored_state post b)))) as [->|Hxp].
    - destruct (w_header _ _ _ _ _ _ _ _ _ Hi Hwp) as (_ & _ & ->).
      rewrite lookup_app_r by lia. replace (N.to_nat (s_slot p) - length (s_hist p))%nat with 0%nat by lia. rewrite Hpar. reflexivity.
    - pose proof (IH _ Hwp Hx Hxp) as Hr. unfold root_at in Hr. rewrite lookup_app_l; [done|]. by eapply lookup_lt_Some.
  Qed.
  (** The head's state, and the blocks of its history that are stored. *)
  Lemma head_facts n : reach n -> exists A As w s l, node_inv A As w n /\ w !! db_head (nd_db n) = Some s /\
    head_state n = Ok s /\ path (tab n) A (db_head (nd_db n)) l /\ descending (tab n) l /\
    (forall x, ancestor (tab n) x (db_head (nd_db n)) <-> x ∈ l) /\
    (forall x h i, t_headers (tab n) !! x = Some h -> i <> s_slot s ->
       (root_at s i = Some x <-> x ∈ l /\ h_slot h = i)).
  Proof.
    intros Hr. destruct (reachable_inv E gt vals Hgood Hvals _ Hr) as (A & As & w & [Hi Hm] & _).
    destruct (di_head _ _ _ _ _ _ _ Hi) as [s Hw]. destruct (di_path _ _ _ _ _ _ _ Hi _ _ Hw) as (l & Hp & Hd & _ & Hroots).
    exists A, As, w, s, l. split_and!; try done.
    - unfold head_state, tab. by rewrite (w_read _ _ _ _ _ _ _ _ _ Hi Hw).
    - intros x. split; [by eapply anc_in_path|by eapply path_ancestor].
    - intros x h i Hh Hne. assert (x <> ZERO) as Hz.
      { rewrite <- (si_hash _ _ _ _ _ (di_st _ _ _ _ _ _ _ Hi) _ _ Hh). apply Hgood. }
      split.
      + intros Hra. destruct (N.le_gt_cases As i) as [Hle|Hlt].
        * destruct (Hroots _ _ Hra Hz Hle) as [Hin Hsl]. split; [done|]. unfold tab in Hh. rewrite (slot_of_header _ _ _ Hh) in Hsl. done.
        * exfalso. destruct (di_chain _ _ _ _ _ _ _ Hi _ _ Hw) as (raw & bs & Hc & ->).
          assert (exists hd, hh hd = x /\ h_slot hd = i) as (hd & Hhd & Hsl).
          { assert ((i, x) ∈ chain_entries hs hh hb gt vals bs) as He.
            { eapply (root_at_entry hs hh hb gt vals raw); [done|exact Hra|by left]. }
            unfold chain_entries in He. apply elem_of_cons in He as [He|He].
            - unfold genesis_root in He. injection He as -> ->. eexists. split; [done|]. cbn. reflexivity.
            - apply elem_of_map in He as (b & He & _). injection He as -> ->. by exists (header_of hb b). }
          rewrite <- Hhd in Hh. pose proof (si_hash _ _ _ _ _ (di_st _ _ _ _ _ _ _ Hi) _ _ Hh) as Hh'.
          apply (proj1 Hgood) in Hh' as ->.
          destruct (di_headers _ _ _ _ _ _ _ Hi _ _ Hh) as [HA|HA]; [|lia].
          destruct (di_anchor _ _ _ _ _ _ _ Hi) as (sa & Hwa & HAs).
          destruct (w_header _ _ _ _ _ _ _ _ _ Hi Hwa) as (Hha & Hsa & _). unfold tab in Hh. rewrite HA, Hha in Hh.
          injection Hh as Hh. subst hd. lia.
      + intros [Hin Hsl]. destruct (decide (x = db_head (nd_db n))) as [->|Hxh].
        { destruct (w_header _ _ _ _ _ _ _ _ _ Hi Hw) as (Hh' & Hs' & _). unfold tab in Hh. rewrite Hh' in Hh. injection Hh as <-. lia. }
        pose proof (hist_path _ _ _ _ _ _ _ _ Hi Hp Hw Hin Hxh) as Hra. unfold tab in Hh. by rewrite (slot_of_header _ _ _ Hh), Hsl in Hra.
  Qed.
End Served.
