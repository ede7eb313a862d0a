(** Selection of attestations and reduction to one entry per data. *)
From Verif Require Export BuilderGreedy.

Notation Entry := (AggAtt * Proof_)%type (only parsing).
Notation Pick := (H256 * PayloadEntry * EntryScore * gset N)%type (only parsing).
Notation Payloads := (list (H256 * PayloadEntry)) (only parsing).

(** *** One candidate *)
Lemma key_lt_irrefl k : key_lt k k = false.
Proof.
  destruct k as [[[[t x] y] z] r]. unfold key_lt.
  rewrite !N.ltb_irrefl, !N.eqb_refl. done.
Qed.
Lemma key_lt_spec t x y z r t' x' y' z' r' :
  key_lt (t, x, y, z, r) (t', x', y', z', r') = true <->
  t < t' \/ (t = t' /\ (x' < x \/ (x = x' /\ (y' < y \/ (y = y' /\ (z' < z \/ (z = z' /\ r < r'))))))).
Proof.
  unfold key_lt. rewrite !orb_true_iff, !andb_true_iff, !orb_true_iff, !andb_true_iff, !orb_true_iff,
    !andb_true_iff, !orb_true_iff, !andb_true_iff, !N.ltb_lt, !N.eqb_eq. done.
Qed.
Lemma key_lt_trans a b c : key_lt a b = true -> key_lt b c = true -> key_lt a c = true.
Proof.
  destruct a as [[[[t1 x1] y1] z1] r1], b as [[[[t2 x2] y2] z2] r2], c as [[[[t3 x3] y3] z3] r3].
  rewrite !key_lt_spec. lia.
Qed.
Lemma key_lt_total a b : key_lt a b = false -> a = b \/ key_lt b a = true.
Proof.
  destruct a as [[[[t1 x1] y1] z1] r1], b as [[[[t2 x2] y2] z2] r2].
  intros H. apply not_true_iff_false in H. rewrite key_lt_spec in H. rewrite key_lt_spec.
  destruct (decide (t1 = t2 /\ x1 = x2 /\ y1 = y2 /\ z1 = z2 /\ r1 = r2)) as [(-> & -> & -> & -> & ->)|Hne]; [by left|right]. lia.
Qed.

Section Pick.
  Context (pj : Projected) (done : list H256) (known hist : list H256) (n : N).

  (** A pool entry that may be picked, with its score. *)
  Definition candidate (c : H256 * PayloadEntry) (sc : EntryScore) (new : gset N) : Prop :=
    c.1 ∉ done /\ passes_filters pj (pe_data c.2) known hist = true /\
    score_entry pj (pe_data c.2) (coverage c.2) n = Some (sc, new).

  Lemma consider_cases best c :
    (exists sc new, candidate c sc new /\
       (best = None \/ exists r e sc' new', best = Some (r, e, sc', new') /\
          key_lt (ordering_key sc c.1) (ordering_key sc' r) = true) /\
       consider pj done known hist n best c = Some (c.1, c.2, sc, new)) \/
    (consider pj done known hist n best c = best /\
     forall sc new, candidate c sc new -> exists r e sc' new', best = Some (r, e, sc', new') /\
       key_lt (ordering_key sc c.1) (ordering_key sc' r) = false).
  Proof.
    unfold consider, candidate.
    destruct (bool_decide_reflect (c.1 ∈ done)) as [Hin|Hout]; [right; split; [done|tauto]|].
    destruct (passes_filters _ _ _ _) eqn:Hp; cbn [negb]; [|right; split; [done|naive_solver]].
    destruct (score_entry _ _ _ _) as [[sc new]|] eqn:Hs; [|right; split; [done|naive_solver]].
    destruct best as [[[[r e] sc'] new']|].
    - destruct (key_lt _ _) eqn:Hk.
      + left. exists sc, new. split; [done|]. split; [|done]. right. eauto 10.
      + right. split; [done|]. intros sc0 new0 (_ & _ & [= <- <-]). eauto 10.
    - left. exists sc, new. split; [done|]. split; [by left|done].
  Qed.

  Lemma scan_spec pool best r e sc new :
    fold_left (consider pj done known hist n) pool best = Some (r, e, sc, new) ->
    (best = Some (r, e, sc, new) \/ ((r, e) ∈ pool /\ candidate (r, e) sc new)) /\
    (forall c sc' new', c ∈ pool -> candidate c sc' new' ->
       key_lt (ordering_key sc' c.1) (ordering_key sc r) = false) /\
    (forall r' e' sc' new', best = Some (r', e', sc', new') ->
       key_lt (ordering_key sc' r') (ordering_key sc r) = false).
  Proof.
    revert best. induction pool as [|c pool IH]; intros best; cbn [fold_left].
    - intros ->. split; [by left|]. split; [intros ? ? ? H; by inversion H|].
      intros r' e' sc' new' [= <- <- <- <-]. apply key_lt_irrefl.
    - intros H. destruct (IH _ H) as (H1 & H2 & H3). clear IH H.
      destruct (consider_cases best c) as [(sc1 & new1 & Hc & Hb & Heq)|[Heq Hno]]; rewrite Heq in *.
      + specialize (H3 _ _ _ _ eq_refl). split; [|split].
        * destruct H1 as [[= <- <- <- <-]|[Hin Hcd]]; right.
          -- rewrite <- surjective_pairing. split; [left|done].
          -- split; [by right|done].
        * intros c' sc' new' Hc' Hcd. apply elem_of_cons in Hc' as [->|Hc']; [|by eapply H2].
          destruct Hc as (_ & _ & Hs). destruct Hcd as (_ & _ & Hs'). rewrite Hs in Hs'. injection Hs' as <- <-. done.
        * intros r' e' sc' new' ->. destruct Hb as [Hb|(r0 & e0 & sc0 & new0 & [= <- <- <- <-] & Hlt)]; [done|].
          apply not_true_iff_false. intros Hlt'. apply not_true_iff_false in H3. apply H3. by eapply key_lt_trans.
      + split; [|split].
        * destruct H1 as [H1|[H1 H1']]; [by left|]. right. split; [by right|done].
        * intros c' sc' new' Hc' Hcd. apply elem_of_cons in Hc' as [->|Hc']; [|by eapply H2].
          destruct (Hno _ _ Hcd) as (r0 & e0 & sc0 & new0 & -> & Hlt).
          specialize (H3 _ _ _ _ eq_refl).
          apply not_true_iff_false. intros Hlt'.
          destruct (key_lt_total _ _ Hlt) as [Heq'|Hlt2]; [congruence|].
          apply not_true_iff_false in H3. apply H3. by eapply key_lt_trans.
        * done.
  Qed.

  Lemma scan_None pool best :
    fold_left (consider pj done known hist n) pool best = None ->
    best = None /\ forall c sc new, c ∈ pool -> ~ candidate c sc new.
  Proof.
    revert best. induction pool as [|c pool IH]; intros best; cbn [fold_left].
    - intros ->. split; [done|]. intros ? ? ? H. by inversion H.
    - intros H. destruct (IH _ H) as [H1 H2].
      destruct (consider_cases best c) as [(sc1 & new1 & Hc & Hb & Heq)|[Heq Hno]]; rewrite Heq in H1; [done|].
      subst best. split; [done|]. intros c' sc new Hc' Hcd. apply elem_of_cons in Hc' as [->|Hc']; [|by eapply H2].
      destruct (Hno _ _ Hcd) as (? & ? & ? & ? & ? & _). done.
  Qed.

  Lemma pick_spec pool r e sc new :
    pick_best_candidate pj done known hist n pool = Some (r, e, sc, new) ->
    (r, e) ∈ pool /\ candidate (r, e) sc new /\
    forall c sc' new', c ∈ pool -> candidate c sc' new' ->
      key_lt (ordering_key sc' c.1) (ordering_key sc r) = false.
  Proof.
    intros H. apply scan_spec in H as (H1 & H2 & _). destruct H1 as [?|[? ?]]; done.
  Qed.

  (** The choice does not depend on the order of the pool. *)
  Lemma key_root sc r sc' r' : ordering_key sc r = ordering_key sc' r' -> r = r'.
  Proof. unfold ordering_key. destruct (sc_tier sc), (sc_tier sc'); congruence. Qed.
  Lemma pick_order pool pool' :
    NoDup (map fst pool) -> pool ≡ₚ pool' ->
    pick_best_candidate pj done known hist n pool = pick_best_candidate pj done known hist n pool'.
  Proof.
    intros Hnd Hp. destruct (pick_best_candidate pj done known hist n pool) as [[[[r e] sc] new]|] eqn:H1.
    - apply pick_spec in H1 as (Hin & Hc & Hmin).
      destruct (pick_best_candidate pj done known hist n pool') as [[[[r' e'] sc'] new']|] eqn:H2.
      + apply pick_spec in H2 as (Hin' & Hc' & Hmin').
        rewrite <- Hp in Hin'. specialize (Hmin _ _ _ Hin' Hc').
        rewrite Hp in Hin. specialize (Hmin' _ _ _ Hin Hc). cbn in *.
        assert (r = r') as <-.
        { destruct (key_lt_total _ _ Hmin) as [Heq|Hlt]; [symmetry; by eapply key_root|]. congruence. }
        rewrite <- Hp in Hin. assert (e = e') as <-.
        { apply elem_of_list_lookup in Hin as [i Hi], Hin' as [j Hj].
          assert (i = j) as <-; [|congruence].
          eapply (NoDup_lookup (map fst pool)); [done|by rewrite list_lookup_fmap, Hi|by rewrite list_lookup_fmap, Hj]. }
        destruct Hc as (_ & _ & Hs), Hc' as (_ & _ & Hs'). cbn in *. rewrite Hs in Hs'. by injection Hs' as <- <-.
      + exfalso. apply scan_None in H2 as [_ H2]. rewrite Hp in Hin. by eapply H2.
    - apply scan_None in H1 as [_ H1].
      destruct (pick_best_candidate pj done known hist n pool') as [[[[r' e'] sc'] new']|] eqn:H2; [|done].
      exfalso. apply pick_spec in H2 as (Hin' & Hc' & _). rewrite <- Hp in Hin'. by eapply H1.
  Qed.
End Pick.

Lemma coverage_spec e v : v ∈ coverage e <-> covered_by (pe_proofs e) v.
Proof.
  unfold coverage, covered_by. rewrite elem_of_list_to_set, elem_of_concat.
  setoid_rewrite elem_of_map. setoid_rewrite <- indices_spec. naive_solver.
Qed.

Lemma score_new pj d cov n sc new :
  score_entry pj d cov n = Some (sc, new) ->
  new = cov ∖ default ∅ (pj_votes pj !! cp_root (ad_target d)) /\ new <> ∅.
Proof.
  unfold score_entry. destruct (bool_decide_reflect (cov ∖ default ∅ (pj_votes pj !! cp_root (ad_target d)) = ∅)) as [|Hne]; [done|].
  intros [= _ <-]. done.
Qed.

(** *** Blocks of entries with the same data *)
Record grouped (bl : list (AttestationData * list Entry)) : Prop := {
  gp_once : NoDup (map fst bl);
  gp_some : forall d g, (d, g) ∈ bl -> g <> [];
  gp_data : forall d g x, (d, g) ∈ bl -> x ∈ g -> at_data x.1 = d }.
Notation flat bl := (concat (map snd bl)).

Lemma grouped_tail x bl : grouped (x :: bl) -> grouped bl.
Proof.
  intros [H1 H2 H3]. split.
  - by inversion H1.
  - intros d g Hg. eapply H2. by right.
  - intros d g y Hg. eapply H3. by right.
Qed.

Lemma order_same (d : AttestationData) (g : list Entry) acc :
  (forall x, x ∈ g -> at_data x.1 = d) -> d ∈ acc ->
  fold_left (fun acc (e : Entry) => if bool_decide (at_data e.1 ∈ acc) then acc else acc ++ [at_data e.1]) g acc = acc.
Proof.
  intros Hg Hd. induction g as [|x g IH]; cbn [fold_left]; [done|].
  rewrite (Hg x) by left. rewrite bool_decide_true by done. apply IH. intros y Hy. apply Hg. by right.
Qed.

Lemma order_grouped bl acc :
  grouped bl -> (forall d, d ∈ map fst bl -> d ∉ acc) ->
  fold_left (fun acc (e : Entry) => if bool_decide (at_data e.1 ∈ acc) then acc else acc ++ [at_data e.1]) (flat bl) acc
  = acc ++ map fst bl.
Proof.
  revert acc. induction bl as [|[d g] bl IH]; intros acc Hg Hacc; cbn [map concat fold_left snd fst].
  { by rewrite app_nil_r. }
  rewrite fold_left_app. pose proof (gp_some _ Hg d g) as Hne. pose proof (gp_data _ Hg d g) as Hd.
  destruct g as [|x g]; [exfalso; apply Hne; [left|done]|]. cbn [fold_left].
  rewrite (Hd x) by left. rewrite bool_decide_false by (apply Hacc; left).
  rewrite (order_same d g).
  - rewrite IH; [by rewrite <- app_assoc|by eapply grouped_tail|].
    intros d' Hd' Hin. apply elem_of_app in Hin as [Hin|Hin].
    + revert Hin. apply Hacc. by right.
    + apply elem_of_list_singleton in Hin as ->. pose proof (gp_once _ Hg) as Hnd. cbn in Hnd. by inversion Hnd.
  - intros y Hy. apply Hd; [left|by right].
  - apply elem_of_app. right. by apply elem_of_list_singleton.
Qed.
Lemma data_order_grouped bl : grouped bl -> data_order (flat bl) = map fst bl.
Proof. intros Hg. unfold data_order. rewrite order_grouped; [done|done|]. intros d _ H. by inversion H. Qed.

Lemma filter_none {A} (f : A -> bool) l : (forall x, x ∈ l -> f x = false) -> List.filter f l = [].
Proof.
  induction l as [|x l IH]; intros H; cbn; [done|]. rewrite (H x) by left. apply IH. intros y Hy. apply H. by right.
Qed.
Lemma filter_all {A} (f : A -> bool) l : (forall x, x ∈ l -> f x = true) -> List.filter f l = l.
Proof.
  induction l as [|x l IH]; intros H; cbn; [done|]. rewrite (H x) by left. f_equal. apply IH. intros y Hy. apply H. by right.
Qed.

Lemma group_other d bl :
  (forall d' g x, (d', g) ∈ bl -> x ∈ g -> at_data x.1 = d') -> d ∉ map fst bl -> group d (flat bl) = [].
Proof.
  intros Hd Hout. apply filter_none. intros x Hx. apply bool_decide_eq_false. intros <-.
  apply elem_of_concat in Hx as (g & Hx & Hg). apply elem_of_map in Hg as ([d' g'] & -> & Hin).
  apply Hout. rewrite (Hd _ _ _ Hin Hx). apply elem_of_map. exists (d', g'). done.
Qed.
Lemma group_grouped bl d g : grouped bl -> (d, g) ∈ bl -> group d (flat bl) = g.
Proof.
  induction bl as [|[d' g'] bl IH]; intros Hg Hin; [by inversion Hin|]. cbn [map concat snd].
  unfold group. rewrite List.filter_app. fold (group d g') (group d (flat bl)).
  pose proof (gp_once _ Hg) as Hnd. cbn in Hnd. inversion Hnd as [|? ? Hn1 Hn2]; subst.
  apply elem_of_cons in Hin as [[= -> ->]|Hin].
  - rewrite (group_other d' bl); [|intros d x y Hx; eapply (gp_data _ Hg); by right|done]. rewrite app_nil_r.
    apply filter_all. intros x Hx. apply bool_decide_eq_true. eapply (gp_data _ Hg); [left|done].
  - rewrite IH; [|by eapply grouped_tail|done].
    assert (group d g' = []) as ->; [|done]. apply filter_none. intros x Hx. apply bool_decide_eq_false. intros Heq.
    rewrite (gp_data _ Hg d' g' x) in Heq; [|left|done]. subst d'. apply Hn1. apply elem_of_map. exists (d, g). done.
Qed.

Lemma flat_length bl : grouped bl -> length bl = length (flat bl) -> forall d g, (d, g) ∈ bl -> exists x, g = [x].
Proof.
  intros Hg. assert (length bl <= length (flat bl))%nat as Hle.
  { clear -Hg. induction bl as [|[d g] bl IH]; cbn; [lia|]. rewrite app_length.
    specialize (IH (grouped_tail _ _ Hg)). pose proof (gp_some _ Hg d g ltac:(left)). destruct g; [done|]. cbn. lia. }
  clear Hle. induction bl as [|[d g] bl IH]; intros Hl d0 g0 Hin; [by inversion Hin|].
  cbn [map concat length snd] in Hl. rewrite app_length in Hl.
  assert (length bl <= length (flat bl))%nat as Hle.
  { pose proof (grouped_tail _ _ Hg) as Hg'. clear -Hg'. induction bl as [|[d g] bl IH]; cbn; [lia|]. rewrite app_length.
    specialize (IH (grouped_tail _ _ Hg')). pose proof (gp_some _ Hg' d g ltac:(left)). destruct g; [done|]. cbn. lia. }
  pose proof (gp_some _ Hg d g ltac:(left)) as Hne. destruct g as [|x g]; [done|]. cbn in Hl.
  apply elem_of_cons in Hin as [[= -> ->]|Hin].
  - destruct g; [eauto|]. cbn in Hl. lia.
  - eapply IH; [by eapply grouped_tail| |done]. lia.
Qed.

Section Reduce.
  Context (E : Env) (P : Prover) (vals : list Validator).

  Lemma loop_grouped bl bl0 r :
    grouped bl0 -> bl ⊆ bl0 ->
    compact_loop E P vals (flat bl0) (map fst bl) = Ok r ->
    Forall2 (fun b e => compact_group E P vals b.1 b.2 = Ok e) bl r.
  Proof.
    intros Hg. revert r. induction bl as [|[d g] bl IH]; intros r Hsub; cbn [map fst compact_loop].
    - intros [= <-]. constructor.
    - rewrite (group_grouped bl0 d g) by (done || apply Hsub; left). intros H.
      apply rbind_Ok in H as (e & He & H). apply rbind_Ok in H as (r' & Hr' & [= <-]).
      constructor; [done|]. apply IH; [|done]. intros x Hx. apply Hsub. by right.
  Qed.

  Lemma compact_grouped bl r :
    grouped bl -> compact_attestations E P (flat bl) vals = Ok r ->
    Forall2 (fun b e => compact_group E P vals b.1 b.2 = Ok e) bl r.
  Proof.
    intros Hg. unfold compact_attestations. rewrite data_order_grouped by done. rewrite map_length.
    destruct (Nat.eqb_spec (length bl) (length (flat bl))) as [Hl|_]; [|by apply loop_grouped].
    intros [= <-]. pose proof (flat_length bl Hg Hl) as Hs. clear Hl Hg.
    induction bl as [|[d g] bl IH]; [constructor|]. cbn [map concat snd].
    destruct (Hs d g ltac:(left)) as [x ->]. cbn [app]. constructor; [done|].
    apply IH. intros d' g' Hin. eapply Hs. by right.
  Qed.

  Lemma first_best_in key e l : first_best key e l ∈ e :: l.
  Proof.
    revert e. induction l as [|x l IH]; intros e; cbn [first_best]; [left|].
    specialize (IH (if ((key e).1 <? (key x).1) || (((key e).1 =? (key x).1) && ((key e).2 <? (key x).2)) then x else e)).
    apply elem_of_cons in IH as [->|IH]; [|right; by right].
    destruct (_ || _); [right; left|left].
  Qed.

  Lemma keep_loop_grouped running claimed bl bl0 r :
    grouped bl0 -> bl ⊆ bl0 ->
    keep_loop running claimed (flat bl0) (map fst bl) = Ok r ->
    Forall2 (fun b e => e ∈ b.2) bl r.
  Proof.
    intros Hg. revert claimed r. induction bl as [|[d g] bl IH]; intros claimed r Hsub; cbn [map fst keep_loop].
    - intros [= <-]. constructor.
    - rewrite (group_grouped bl0 d g) by (done || apply Hsub; left).
      destruct g as [|e es]; [done|]. intros H. apply rbind_Ok in H as (r' & Hr' & [= <-]).
      constructor; [apply first_best_in|]. eapply IH; [|done]. intros x Hx. apply Hsub. by right.
  Qed.
  Lemma keep_grouped running bl r :
    grouped bl -> keep_best_proof_per_data (flat bl) running = Ok r -> Forall2 (fun b e => e ∈ b.2) bl r.
  Proof.
    intros Hg. unfold keep_best_proof_per_data. rewrite data_order_grouped by done. rewrite map_length.
    destruct (Nat.eqb_spec (length bl) (length (flat bl))) as [Hl|_]; [|by apply keep_loop_grouped].
    intros [= <-]. pose proof (flat_length bl Hg Hl) as Hs. clear Hl Hg.
    induction bl as [|[d g] bl IH]; [constructor|]. cbn [map concat snd].
    destruct (Hs d g ltac:(left)) as [x ->]. cbn [app]. constructor; [left|].
    apply IH. intros d' g' Hin. eapply Hs. by right.
  Qed.
  Lemma keep_ok running bl : grouped bl -> exists r, keep_best_proof_per_data (flat bl) running = Ok r.
  Proof.
    intros Hg. unfold keep_best_proof_per_data. rewrite data_order_grouped by done. rewrite map_length.
    destruct (Nat.eqb_spec (length bl) (length (flat bl))) as [Hl|_]; [eauto|].
    assert (forall l claimed, l ⊆ bl -> exists r, keep_loop running claimed (flat bl) (map fst l) = Ok r) as H; [|by apply H].
    induction l as [|[d g] l IH]; intros claimed Hsub; cbn [map fst keep_loop]; [eauto|].
    rewrite (group_grouped bl d g) by (done || apply Hsub; left).
    pose proof (gp_some _ Hg d g (Hsub _ ltac:(left))) as Hne. destruct g as [|e es]; [done|].
    edestruct IH as [r Hr]; [intros x Hx; apply Hsub; by right|]. rewrite Hr. cbn. eauto.
  Qed.
End Reduce.

Section Select.
  Context (E : Env) (iter : AttestationData -> nat -> list nat -> list nat) (Hiter : forall d, an_order (iter d)).
  Context (known hist : list H256) (n : N) (pool : Payloads).

  Definition chosen (e : PayloadEntry) : list Entry :=
    map (fun p => (mkAtt (pr_bits p) (pe_data e), p)) (greedy_proofs (iter (pe_data e)) (pe_proofs e)).
  Definition pick_data (p : Pick) : AttestationData := pe_data p.1.1.2.
  Definition pick_block (p : Pick) : AttestationData * list Entry := (pick_data p, chosen p.1.1.2).

  Inductive picked : Projected -> list H256 -> list Pick -> Projected -> Prop :=
  | pk_nil pj done : picked pj done [] pj
  | pk_cons pj done root e sc new pj1 ps pj2 :
      pick_best_candidate pj done known hist n pool = Some (root, e, sc, new) ->
      advance pj (sc_tier sc) (pe_data e) new = Ok pj1 ->
      picked pj1 (root :: done) ps pj2 ->
      picked pj done ((root, e, sc, new) :: ps) pj2.

  Lemma select_loop_spec k pj done l :
    select_loop iter k pj done known hist n pool = Ok l ->
    exists ps pj2, picked pj done ps pj2 /\ l = flat (map pick_block ps) /\ (length ps <= k)%nat /\
      ((length ps < k)%nat -> pick_best_candidate pj2 (rev (map (fun x : Pick => x.1.1.1) ps) ++ done) known hist n pool = None).
  Proof.
    revert pj done l. induction k as [|k IH]; intros pj done l; cbn [select_loop].
    - intros [= <-]. exists [], pj. split; [constructor|]. split; [done|]. cbn. split; [lia|]. lia.
    - destruct (pick_best_candidate pj done known hist n pool) as [[[[root e] sc] new]|] eqn:Hp.
      2:{ intros [= <-]. exists [], pj. split; [constructor|]. cbn. split; [done|]. split; [lia|done]. }
      destruct (advance pj (sc_tier sc) (pe_data e) new) as [pj1|?|] eqn:Ha; [|done|done].
      intros H. apply rbind_Ok in H as (r & Hr & [= <-]). destruct (IH _ _ _ Hr) as (ps & pj2 & H1 & -> & H3 & H4).
      exists ((root, e, sc, new) :: ps), pj2. split; [by econstructor|]. split; [done|]. cbn. split; [lia|].
      intros Hlt. rewrite <- app_assoc. apply H4. lia.
  Qed.

  Lemma picked_spec pj done ps pj2 :
    picked pj done ps pj2 ->
    (forall x, x ∈ ps -> (x.1.1.1, x.1.1.2) ∈ pool /\ x.1.1.1 ∉ done) /\ NoDup (map (fun x : Pick => x.1.1.1) ps).
  Proof.
    induction 1 as [|pj done root e sc new pj1 ps pj2 Hp Ha Hps [IH1 IH2]]; cbn.
    - split; [|constructor]. intros x Hx. by inversion Hx.
    - apply pick_spec in Hp as (Hin & Hc & _). split.
      + intros x Hx. apply elem_of_cons in Hx as [->|Hx]; cbn; [split; [done|apply Hc]|].
        destruct (IH1 _ Hx) as [H1 H2]. split; [done|]. intros H. apply H2. by right.
      + constructor; [|done]. intros Hin'. apply elem_of_map in Hin' as (x & Hx & Hxin).
        destruct (IH1 _ Hxin) as [_ H2]. rewrite <- Hx in H2. apply H2. left.
  Qed.

  Lemma pick_some pj done root e sc new :
    pick_best_candidate pj done known hist n pool = Some (root, e, sc, new) ->
    exists v, covered_by (greedy_proofs (iter (pe_data e)) (pe_proofs e)) v.
  Proof.
    intros Hp. apply pick_spec in Hp as (_ & (_ & _ & Hs) & _). apply score_new in Hs as [-> Hne].
    apply set_choose_L in Hne as [v Hv]. apply elem_of_difference in Hv as [Hv _].
    exists v. apply greedy_covered; [apply Hiter|]. by apply coverage_spec.
  Qed.

  Lemma picked_grouped pj done ps pj2 :
    keyed E pool -> picked pj done ps pj2 -> grouped (map pick_block ps).
  Proof.
    intros Hk Hps. destruct (picked_spec _ _ _ _ Hps) as [Hin Hnd]. split.
    - apply NoDup_alt. intros i j d Hi Hj. rewrite !list_lookup_fmap in Hi, Hj.
      destruct (ps !! i) as [x|] eqn:Hx; [|done]. destruct (ps !! j) as [y|] eqn:Hy; [|done].
      cbn in Hi, Hj. injection Hi as Hi. injection Hj as Hj.
      eapply (NoDup_lookup (map (fun x : Pick => x.1.1.1) ps)); [done|by rewrite list_lookup_fmap, Hx|].
      rewrite list_lookup_fmap, Hy. cbn. f_equal.
      destruct (Hin x ltac:(by eapply elem_of_list_lookup_2)) as [Hx' _].
      destruct (Hin y ltac:(by eapply elem_of_list_lookup_2)) as [Hy' _].
      rewrite (ky_root _ _ Hk _ _ Hx'), (ky_root _ _ Hk _ _ Hy'). unfold pick_data in *. congruence.
    - clear Hin Hnd. induction Hps as [|pj done root e sc new pj1 ps pj2 Hp Ha Hps IH]; intros d g Hg; [by inversion Hg|].
      cbn [map] in Hg. apply elem_of_cons in Hg as [Hg|Hg]; [|by eapply IH].
      injection Hg as -> ->. cbn. destruct (pick_some _ _ _ _ _ _ Hp) as (v & p & Hp' & _).
      intros Hnil. unfold chosen in Hnil. apply map_eq_nil in Hnil. rewrite Hnil in Hp'. by inversion Hp'.
    - intros d g x Hg Hx. apply elem_of_map in Hg as (y & [= -> ->] & _).
      unfold chosen in Hx. apply elem_of_map in Hx as (p & -> & _). done.
  Qed.
End Select.
