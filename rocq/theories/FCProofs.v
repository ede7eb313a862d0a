(** Proofs about fork choice. *)
From Verif Require Export FCSpec Lib.

(** ** Vote tracking *)
Section VoteProofs.
  Context (hash_data : AttestationData -> H256).
  Notation le := (vote_le hash_data).

  Lemma vote_le_refl d : le d d.
  Proof. right. lia. Qed.
  Lemma vote_le_trans a b c : le a b -> le b c -> le a c.
  Proof. unfold vote_le. lia. Qed.
  Lemma should_replace_true e d : should_replace_vote hash_data e d = true -> le e d.
  Proof. unfold should_replace_vote, vote_le. lia. Qed.
  Lemma should_replace_false e d : should_replace_vote hash_data e d = false -> le d e.
  Proof. unfold should_replace_vote, vote_le. lia. Qed.

  (** [o] is the newest delivery of [v] among [P], if any. *)
  Definition best_of (P : AttestationData -> Prop) (o : option AttestationData) : Prop :=
    match o with
    | Some d => P d /\ forall d', P d' -> le d' d
    | None => forall d, ~ P d
    end.

  Lemma best_of_ext P Q o : (forall d, P d <-> Q d) -> best_of P o -> best_of Q o.
  Proof.
    intros H. destruct o as [d|]; cbn [best_of]; [intros [H1 H2]|intros H1]; [split|];
      [by apply H|intros d' Hd'; apply H2; by apply H|intros d Hd; by apply (H1 d), H].
  Qed.

  Lemma record_vote_other m v v' d : v <> v' -> record_vote hash_data m v d !! v' = m !! v'.
  Proof.
    intros Hne. unfold record_vote. destruct (m !! v); [destruct (should_replace_vote _ _ _)|];
      by rewrite ?lookup_insert_ne.
  Qed.

  Lemma record_vote_best P m v d :
    best_of P (m !! v) -> best_of (fun d' => P d' \/ d' = d) (record_vote hash_data m v d !! v).
  Proof.
    unfold record_vote. destruct (m !! v) as [e|] eqn:E; cbn [best_of].
    - intros [H1 H2]. destruct (should_replace_vote hash_data e d) eqn:Hr.
      + apply should_replace_true in Hr. rewrite lookup_insert. cbn [best_of].
        split; [by right|]. intros d' [Hd'| ->]; [|apply vote_le_refl].
        eapply vote_le_trans; [by apply H2|done].
      + apply should_replace_false in Hr. rewrite E. cbn [best_of]. split; [by left|].
        intros d' [Hd'| ->]; [by apply H2|done].
    - intros H. rewrite lookup_insert. cbn [best_of]. split; [by right|].
      intros d' [Hd'| ->]; [by apply H in Hd'|apply vote_le_refl].
  Qed.

  Lemma record_all_best P m vs v d :
    best_of P (m !! v) ->
    best_of (fun d' => P d' \/ (v ∈ vs /\ d' = d)) (record_all hash_data m vs d !! v).
  Proof.
    unfold record_all. revert m P. induction vs as [|u vs IH]; intros m P H; cbn [fold_left].
    - eapply best_of_ext; [|exact H]. intros d'. rewrite elem_of_nil. tauto.
    - destruct (decide (u = v)) as [->|Hne].
      + eapply best_of_ext; [|apply IH, record_vote_best, H].
        intros d'. cbn beta. rewrite elem_of_cons. tauto.
      + eapply best_of_ext; [|apply IH; rewrite record_vote_other by done; exact H].
        intros d'. cbn beta. rewrite elem_of_cons. intuition congruence.
  Qed.

  Lemma promote_best P m order v :
    best_of P (m !! v) ->
    best_of (fun d' => P d' \/ (v, d') ∈ order)
      (fold_left (fun m e => record_vote hash_data m e.1 e.2) order m !! v).
  Proof.
    revert m P. induction order as [|[u d] order IH]; intros m P H; cbn [fold_left fst snd].
    - eapply best_of_ext; [|exact H]. intros d'. rewrite elem_of_nil. tauto.
    - destruct (decide (u = v)) as [->|Hne].
      + eapply best_of_ext; [|apply IH, record_vote_best, H].
        intros d'. cbn beta. rewrite elem_of_cons. intuition congruence.
      + eapply best_of_ext; [|apply IH; rewrite record_vote_other by done; exact H].
        intros d'. cbn beta. rewrite elem_of_cons. intuition congruence.
  Qed.

  Definition voted (l : list (Bits * AttestationData)) (v : N) (d : AttestationData) : Prop :=
    exists bits, (bits, d) ∈ l /\ bits !! N.to_nat v = Some true.

  Lemma voted_app l l' v d : voted (l ++ l') v d <-> voted l v d \/ voted l' v d.
  Proof.
    unfold voted. split.
    - intros (b & H & Hb). apply elem_of_app in H as [H|H]; [left|right]; eauto.
    - intros [(b & H & Hb)|(b & H & Hb)]; exists b; rewrite elem_of_app; eauto.
  Qed.
  Lemma voted_one bits d' v d : voted [(bits, d')] v d <-> v ∈ validator_indices bits /\ d = d'.
  Proof.
    unfold voted. rewrite validator_indices_spec. split.
    - intros (b & H & Hb). apply elem_of_list_singleton in H as [= -> ->]. done.
    - intros [Hb ->]. exists bits. by rewrite elem_of_list_singleton.
  Qed.

  Lemma delivered_snoc p evs e :
    delivered p (evs ++ [e]) =
    let '(k, n) := delivered p evs in
    match e with
    | ev_known bits d => (k ++ [(bits, d)], n)
    | ev_new bits d => (k, n ++ [(bits, d)])
    | ev_promote _ => (k ++ n, [])
    end.
  Proof.
    revert p. induction evs as [|e' evs IH]; intros p; cbn [app delivered].
    - destruct e; cbn [delivered]; by rewrite ?app_nil_r.
    - destruct e' as [b d|b d|o].
      + rewrite IH. destruct (delivered p evs) as [k n]. by destruct e.
      + rewrite IH. done.
      + rewrite IH. destruct (delivered [] evs) as [k n]. destruct e; by rewrite ?app_assoc.
  Qed.

  Lemma vote_run_best evs f :
    vote_run hash_data evs f ->
    forall v, best_of (voted (known_deliveries evs) v) (fc_known f !! v) /\
              best_of (voted (new_deliveries evs) v) (fc_new f !! v).
  Proof.
    unfold known_deliveries, new_deliveries.
    induction 1 as [|evs f bits d Hr IH|evs f bits d Hr IH|evs f order Hr IH Ho]; intros v.
    - cbn. rewrite !lookup_empty. cbn. split; intros d (b & H & _); by apply elem_of_nil in H.
    - rewrite delivered_snoc. specialize (IH v). destruct (delivered [] evs) as [k n].
      cbn [fst snd fc_known fc_new record_known] in IH |- *. destruct IH as [IH1 IH2].
      split; [|done]. eapply best_of_ext; [|apply record_all_best, IH1].
      intros d'. cbn beta. by rewrite voted_app, voted_one.
    - rewrite delivered_snoc. specialize (IH v). destruct (delivered [] evs) as [k n].
      cbn [fst snd fc_known fc_new record_new] in IH |- *. destruct IH as [IH1 IH2].
      split; [done|]. eapply best_of_ext; [|apply record_all_best, IH2].
      intros d'. cbn beta. by rewrite voted_app, voted_one.
    - rewrite delivered_snoc. specialize (IH v). destruct (delivered [] evs) as [k n].
      cbn [fst snd fc_known fc_new promote_with] in IH |- *. destruct IH as [IH1 IH2].
      split.
      + apply (promote_best _ _ order) in IH1. revert IH1.
        assert (forall d', (v, d') ∈ order <-> fc_new f !! v = Some d') as Ho'.
        { intros d'. rewrite Ho. apply elem_of_map_to_list. }
        destruct (fold_left _ order _ !! v) as [d|]; cbn [best_of].
        * intros [H1 H2]. split.
          -- apply voted_app. destruct H1 as [H1|H1]; [by left|]. apply Ho' in H1.
             rewrite H1 in IH2. right. apply IH2.
          -- intros d' Hd'. apply voted_app in Hd' as [Hd'|Hd']; [apply H2; by left|].
             destruct (fc_new f !! v) as [e|] eqn:E; [|by apply IH2 in Hd'].
             eapply vote_le_trans; [by apply IH2|]. apply H2. right. by apply Ho'.
        * intros H d' Hd'. apply voted_app in Hd' as [Hd'|Hd']; [apply (H d'); by left|].
          destruct (fc_new f !! v) as [e|] eqn:E; [|by apply IH2 in Hd'].
          apply (H e). right. by apply Ho'.
      + rewrite lookup_empty. cbn. intros d' (b & H & _). by apply elem_of_nil in H.
  Qed.

  Lemma vote_run_newest evs f v d :
    vote_run hash_data evs f ->
    (fc_known f !! v = Some d -> newest hash_data (known_deliveries evs) v d) /\
    (fc_new f !! v = Some d -> newest hash_data (new_deliveries evs) v d) /\
    (voted (known_deliveries evs) v d -> is_Some (fc_known f !! v)) /\
    (voted (new_deliveries evs) v d -> is_Some (fc_new f !! v)).
  Proof.
    intros Hr. destruct (vote_run_best _ _ Hr v) as [H1 H2].
    split; [|split; [|split]].
    - intros E. rewrite E in H1. destruct H1 as [H1 H1']. split; [exact H1|].
      intros b d' Hin Hb. apply H1'. by exists b.
    - intros E. rewrite E in H2. destruct H2 as [H2 H2']. split; [exact H2|].
      intros b d' Hin Hb. apply H2'. by exists b.
    - intros Hv. destruct (fc_known f !! v); [by eexists|]. by apply H1 in Hv.
    - intros Hv. destruct (fc_new f !! v); [by eexists|]. by apply H2 in Hv.
  Qed.

  Lemma best_unique (P : AttestationData -> Prop) o o' :
    (forall x y, P x -> P y -> ad_slot x = ad_slot y -> hash_data x = hash_data y -> x = y) ->
    best_of P o -> best_of P o' -> o = o'.
  Proof.
    intros Hinj. destruct o as [d|], o' as [d'|]; cbn [best_of]; [|intros [Ha _] Hb; by apply Hb in Ha|intros Ha [Hb _]; by apply Ha in Hb|done].
    intros [H1 H2] [H3 H4]. f_equal. specialize (H2 _ H3). specialize (H4 _ H1).
    unfold vote_le in *. apply Hinj; [done|done|lia|lia].
  Qed.

  Lemma vote_run_order evs f evs' f' :
    (forall x y, hash_data x = hash_data y -> x = y) ->
    vote_run hash_data evs f -> vote_run hash_data evs' f' ->
    (forall v d, voted (known_deliveries evs) v d <-> voted (known_deliveries evs') v d) ->
    fc_known f = fc_known f'.
  Proof.
    intros Hinj H1 H2 Heq. apply map_eq. intros v.
    apply (best_unique (voted (known_deliveries evs) v)); [intros; by apply Hinj| |].
    - by apply vote_run_best.
    - eapply best_of_ext; [|by apply vote_run_best]. intros d. by rewrite Heq.
  Qed.
End VoteProofs.

(** ** Weights *)
Lemma fold_bump_lookup l (w : Weights) r :
  fold_left bump l w !! r =
  let k := count_occ N.eq_dec l r in
  if decide (k = 0%nat) then w !! r else Some (default 0 (w !! r) + N.of_nat k).
Proof.
  revert w. induction l as [|x l IH]; intros w; cbn [fold_left count_occ]; [done|].
  rewrite IH. cbn zeta. destruct (N.eq_dec x r) as [->|Hne].
  - unfold bump. rewrite !lookup_insert. destruct (decide (S _ = 0%nat)) as [|_]; [lia|].
    change (default 0 (Some (default 0 (w !! r) + 1))) with (default 0 (w !! r) + 1).
    destruct (decide _) as [Hz|Hz]; f_equal; lia.
  - unfold bump. by rewrite !lookup_insert_ne.
Qed.

Lemma fold_bump_perm l l' w : l ≡ₚ l' -> fold_left bump l w = fold_left bump l' w.
Proof.
  intros Hp. apply map_eq. intros r. rewrite !fold_bump_lookup.
  by rewrite (Permutation_count_occ N.eq_dec) in Hp; rewrite Hp.
Qed.

Definition walk_of (m : BlockTree) (start : N) (e : N * AttestationData) : option (list H256) :=
  walk (size m) m start (cp_root (ad_head e.2)).

Lemma add_weights_concat m start votes w :
  add_weights m start votes w =
  match mapM (walk_of m start) votes with
  | Some ls => Some (fold_left bump (concat ls) w)
  | None => None
  end.
Proof.
  revert w. induction votes as [|[v d] votes IH]; intros w; cbn [add_weights mapM]; [done|].
  change (walk (size m) m start (cp_root (ad_head d))) with (walk_of m start (v, d)).
  destruct (walk_of m start (v, d)) as [l|]; cbn [mbind option_bind]; [|done].
  rewrite IH. destruct (mapM _ votes) as [ls|]; cbn [mret option_ret mbind option_bind concat]; [|done].
  by rewrite fold_left_app.
Qed.

Lemma mapM_perm {A B} (f : A -> option B) l l' :
  l ≡ₚ l' ->
  match mapM f l, mapM f l' with
  | Some k, Some k' => k ≡ₚ k'
  | None, None => True
  | _, _ => False
  end.
Proof.
  induction 1 as [|x l l' Hp IH|x y l|l l' l'' Hp IH Hp' IH']; cbn [mapM].
  - cbn. done.
  - destruct (f x); cbn [mbind option_bind]; [|done].
    destruct (mapM f l), (mapM f l'); cbn; try done. by constructor.
  - destruct (f x), (f y); cbn [mbind option_bind]; try done.
    all: destruct (mapM f l); cbn; try done. constructor.
  - destruct (mapM f l), (mapM f l'), (mapM f l''); try done. by etrans.
Qed.

Lemma concat_perm {A} (l l' : list (list A)) : l ≡ₚ l' -> concat l ≡ₚ concat l'.
Proof.
  induction 1; cbn [concat].
  - done.
  - by apply Permutation_app_head.
  - rewrite !app_assoc. apply Permutation_app_tail, Permutation_app_comm.
  - by etrans.
Qed.

Lemma add_weights_perm m start votes votes' w :
  votes ≡ₚ votes' -> add_weights m start votes w = add_weights m start votes' w.
Proof.
  intros Hp. rewrite !add_weights_concat.
  apply (mapM_perm (walk_of m start)) in Hp.
  destruct (mapM _ votes), (mapM _ votes'); try done.
  f_equal. by apply fold_bump_perm, concat_perm.
Qed.

(** ** Selection of the best child *)
Lemma max_key_spec w b l :
  max_key w b l ∈ b :: l /\ forall x, x ∈ b :: l -> key_le w x (max_key w b l) = true.
Proof.
  revert b. induction l as [|r l IH]; intros b; cbn [max_key].
  - split; [left|]. intros x Hx. apply elem_of_list_singleton in Hx as ->. unfold key_le. lia.
  - destruct (IH (if key_le w b r then r else b)) as [H1 H2]. split.
    + apply elem_of_cons in H1 as [H1|H1].
      * rewrite H1. destruct (key_le w b r); [right; left|left].
      * right. by right.
    + assert (forall x, key_le w x (if key_le w b r then r else b) = true ->
        key_le w x (max_key w (if key_le w b r then r else b) l) = true) as Htr.
      { intros x Hx. specialize (H2 (if key_le w b r then r else b) ltac:(left)).
        unfold key_le in *. lia. }
      intros x Hx. apply elem_of_cons in Hx as [->|Hx].
      * apply Htr. destruct (key_le w b r) eqn:E; [done|]. unfold key_le. lia.
      * apply elem_of_cons in Hx as [->|Hx]; [|apply H2; by right].
        apply Htr. destruct (key_le w b r) eqn:E; unfold key_le in *; lia.
Qed.

Lemma max_key_unique w b l b' l' :
  b :: l ≡ₚ b' :: l' -> max_key w b l = max_key w b' l'.
Proof.
  intros Hp. destruct (max_key_spec w b l) as [H1 H2], (max_key_spec w b' l') as [H3 H4].
  rewrite Hp in H1. rewrite <- Hp in H3. specialize (H2 _ H3). specialize (H4 _ H1).
  unfold key_le in *. lia.
Qed.

Lemma omap_perm {A B} (f : A -> option B) l l' : l ≡ₚ l' -> omap f l ≡ₚ omap f l'.
Proof.
  induction 1 as [|x l l' Hp IH|x y l|l l' l'' Hp IH Hp' IH']; cbn.
  - done.
  - destruct (f x); [by constructor|done].
  - destruct (f x), (f y); try done. constructor.
  - by etrans.
Qed.

Lemma descend_perm f blocks blocks' w ms h :
  blocks ≡ₚ blocks' -> descend f blocks w ms h = descend f blocks' w ms h.
Proof.
  intros Hp. revert h. induction f as [|f IH]; intros h; cbn [descend].
  - pose proof (omap_perm (fun e : H256 * (N * H256) =>
      let '(r, (_, parent)) := e in
      if parent =? ZERO then None
      else if (0 <? ms) && (weight w r <? ms) then None
      else if parent =? h then Some r else None) _ _ Hp) as Hc.
    fold (children blocks w ms h) in Hc. fold (children blocks' w ms h) in Hc.
    destruct (children blocks w ms h).
    + apply Permutation_nil_l in Hc. by rewrite <- Hc.
    + destruct (children blocks' w ms h); [|done]. by apply Permutation_nil_r in Hc.
  - pose proof (omap_perm (fun e : H256 * (N * H256) =>
      let '(r, (_, parent)) := e in
      if parent =? ZERO then None
      else if (0 <? ms) && (weight w r <? ms) then None
      else if parent =? h then Some r else None) _ _ Hp) as Hc.
    fold (children blocks w ms h) in Hc. fold (children blocks' w ms h) in Hc.
    destruct (children blocks w ms h) as [|c cs].
    + apply Permutation_nil_l in Hc. by rewrite <- Hc.
    + destruct (children blocks' w ms h) as [|c' cs']; [by apply Permutation_nil_r in Hc|].
      rewrite (max_key_unique w c cs c' cs' Hc). apply IH.
Qed.

Lemma ghost_perm start blocks blocks' votes votes' ms :
  start <> ZERO -> NoDup (map fst blocks) -> blocks ≡ₚ blocks' -> votes ≡ₚ votes' ->
  compute_lmd_ghost_head start blocks votes ms = compute_lmd_ghost_head start blocks' votes' ms.
Proof.
  intros Hs Hnd Hb Hv. unfold compute_lmd_ghost_head.
  destruct blocks as [|e es]; [apply Permutation_nil_l in Hb; by subst|].
  destruct blocks' as [|e' es']; [by apply Permutation_nil_r in Hb|].
  unfold ZERO in *. destruct (N.eqb_spec start 0) as [|_]; [done|].
  assert ((list_to_map (e :: es) : BlockTree) = list_to_map (e' :: es')) as Hm
    by (by apply list_to_map_proper).
  unfold compute_block_weights. rewrite <- Hm.
  destruct ((list_to_map (e :: es) : BlockTree) !! start) as [[ss pp]|]; [|done].
  rewrite (add_weights_perm _ _ _ _ _ Hv).
  destruct (add_weights _ _ _ _) as [w|]; [|done].
  rewrite (descend_perm _ _ _ _ _ _ Hb). by rewrite (Permutation_length Hb).
Qed.

(** ** Termination and meaning of the walks *)
Fixpoint countb {A} (P : A -> bool) (l : list A) : nat :=
  match l with [] => O | x :: l' => ((if P x then 1 else 0) + countb P l')%nat end.
Lemma countb_length {A} (P : A -> bool) l : (countb P l <= length l)%nat.
Proof. induction l as [|x l IH]; cbn [countb length]; [lia|]. destruct (P x); lia. Qed.
Lemma countb_lt {A} (P Q : A -> bool) l x :
  (forall y, P y = true -> Q y = true) -> x ∈ l -> P x = false -> Q x = true ->
  (countb P l < countb Q l)%nat.
Proof.
  intros Himp. assert (forall k, countb P k <= countb Q k)%nat as Hle.
  { induction k as [|y k IH]; cbn [countb]; [lia|].
    destruct (P y) eqn:E; [rewrite (Himp _ E); lia|]. destruct (Q y); lia. }
  induction l as [|y l IH]; intros Hin HP HQ; [by apply elem_of_nil in Hin|].
  apply elem_of_cons in Hin as [->|Hin]; cbn [countb].
  - rewrite HP, HQ. specialize (Hle l). lia.
  - specialize (IH Hin HP HQ). destruct (P y) eqn:E; [rewrite (Himp _ E); lia|]. destruct (Q y); lia.
Qed.

Notation below s := (fun e : H256 * (N * H256) => (snd e).1 <=? s).
Notation above s := (fun e : H256 * (N * H256) => s <? (snd e).1).

Lemma walk_total f m start r :
  slots_decrease m ->
  (forall s p, m !! r = Some (s, p) -> countb (below s) (map_to_list m) <= f)%nat ->
  is_Some (walk f m start r).
Proof.
  intros Hd. revert r. induction f as [|f IH]; intros r Hf; cbn [walk].
  - destruct (m !! r) as [[s p]|] eqn:E; [|by eexists].
    destruct (start <? s); [|by eexists]. specialize (Hf _ _ eq_refl).
    exfalso. assert (countb (fun _ => false) (map_to_list m) < countb (below s) (map_to_list m))%nat; [|lia].
    apply countb_lt with (r, (s, p)); [done|by apply elem_of_map_to_list|done|cbn; lia].
  - destruct (m !! r) as [[s p]|] eqn:E; [|by eexists].
    destruct (start <? s); [|by eexists].
    destruct (IH p) as [l Hl].
    { intros s' p' E'. specialize (Hf _ _ eq_refl). pose proof (Hd _ _ _ _ _ E E') as Hlt.
      assert (countb (below s') (map_to_list m) < countb (below s) (map_to_list m))%nat; [|lia].
      apply countb_lt with (r, (s, p)); [intros y; cbn; lia|by apply elem_of_map_to_list|cbn; lia|cbn; lia]. }
    rewrite Hl. by eexists.
Qed.

Lemma walk_size_total m start r : slots_decrease m -> is_Some (walk (size m) m start r).
Proof.
  intros Hd. apply walk_total; [done|]. intros s p _.
  apply (countb_length (below s) (map_to_list m)).
Qed.

Lemma descends_in m r a : descends m r a -> is_Some (m !! r) /\ is_Some (m !! a).
Proof. induction 1 as [r e H|r s p a H Hd [_ IH]]; [split; by eexists|split; [by eexists|done]]. Qed.

Lemma descends_slot m r a s p s' p' :
  slots_decrease m -> descends m r a -> m !! r = Some (s, p) -> m !! a = Some (s', p') ->
  s' <= s /\ (s' = s -> r = a).
Proof.
  intros Hd H. revert s p. induction H as [r e H|r s0 p0 a H Hda IH]; intros s p Hr Ha.
  - split; [|done]. rewrite Hr in Ha. injection Ha as -> ->. lia.
  - rewrite H in Hr. injection Hr as -> ->.
    destruct (descends_in _ _ _ Hda) as [[[sp pp] Hp] _].
    pose proof (Hd _ _ _ _ _ H Hp). destruct (IH _ _ Hp Ha). lia.
Qed.

Lemma descends_trans m a b c : descends m a b -> descends m b c -> descends m a c.
Proof. induction 1 as [|r s p b Hr Hd IH]; [done|]. intros H. eapply desc_step; eauto. Qed.

Lemma walk_spec f m start r l :
  slots_decrease m -> walk f m start r = Some l ->
  NoDup l /\ forall a, a ∈ l <-> descends m r a /\ exists s p, m !! a = Some (s, p) /\ start < s.
Proof.
  intros Hd. revert r l. induction f as [|f IH]; intros r l; cbn [walk].
  - destruct (m !! r) as [[s p]|] eqn:E.
    + destruct (N.ltb_spec start s) as [Hlt|Hge]; [done|]. intros [= <-]. split; [constructor|].
      intros a. rewrite elem_of_nil. split; [done|]. intros (Ha & s' & p' & Hm & Hs).
      destruct (descends_slot _ _ _ _ _ _ _ Hd Ha E Hm). lia.
    + intros [= <-]. split; [constructor|]. intros a. rewrite elem_of_nil. split; [done|].
      intros (Ha & _). apply descends_in in Ha as [[? ?] _]. congruence.
  - destruct (m !! r) as [[s p]|] eqn:E.
    + destruct (N.ltb_spec start s) as [Hlt|Hge].
      * destruct (walk f m start p) as [l'|] eqn:E'; [|done]. intros [= <-].
        destruct (IH _ _ E') as [Hnd Hmem]. split.
        -- constructor; [|done]. rewrite Hmem. intros (Ha & _).
           destruct (descends_in _ _ _ Ha) as [[[sp pp] Hp] _].
           pose proof (Hd _ _ _ _ _ E Hp). destruct (descends_slot _ _ _ _ _ _ _ Hd Ha Hp E). lia.
        -- intros a. rewrite elem_of_cons, Hmem. split.
           ++ intros [->|[Ha Hs]]; [split; [by eapply desc_refl|eauto]|].
              split; [by eapply desc_step|done].
           ++ intros [Ha Hs]. inversion Ha as [r' e He|r' s' p' a' Hr' Ha' E1 E2]; subst; [by left|].
              right. rewrite E in Hr'. injection Hr' as <- <-. done.
      * intros [= <-]. split; [constructor|].
        intros a. rewrite elem_of_nil. split; [done|]. intros (Ha & s' & p' & Hm & Hs).
        destruct (descends_slot _ _ _ _ _ _ _ Hd Ha E Hm). lia.
    + intros [= <-]. split; [constructor|]. intros a. rewrite elem_of_nil. split; [done|].
      intros (Ha & _). apply descends_in in Ha as [[? ?] _]. congruence.
Qed.

Lemma add_weights_total m start votes w :
  slots_decrease m -> is_Some (add_weights m start votes w).
Proof.
  intros Hd. revert w. induction votes as [|[v d] votes IH]; intros w; cbn [add_weights]; [by eexists|].
  destruct (walk_size_total m start (cp_root (ad_head d)) Hd) as [l ->]. apply IH.
Qed.

Lemma weight_bump_walk l w r :
  NoDup l -> weight (fold_left bump l w) r = weight w r + (if decide (r ∈ l) then 1 else 0).
Proof.
  intros Hnd. unfold weight. rewrite fold_bump_lookup. cbn zeta.
  apply NoDup_ListNoDup in Hnd. rewrite (NoDup_count_occ N.eq_dec) in Hnd. specialize (Hnd r).
  destruct (decide (r ∈ l)) as [Hin|Hin].
  - apply elem_of_list_In, (count_occ_In N.eq_dec) in Hin.
    destruct (decide _) as [Hz|_]; [lia|]. cbn. lia.
  - rewrite elem_of_list_In, (count_occ_In N.eq_dec) in Hin.
    destruct (decide _) as [_|Hz]; [|lia]. lia.
Qed.

Lemma add_weights_count m start votes w w' r s p :
  slots_decrease m -> m !! r = Some (s, p) -> start < s ->
  NoDup (map fst votes) ->
  add_weights m start votes w = Some w' ->
  exists vs, NoDup vs /\
    (forall v, v ∈ vs <-> exists d, (v, d) ∈ votes /\ descends m (cp_root (ad_head d)) r) /\
    weight w' r = weight w r + lenN vs.
Proof.
  intros Hd Hr Hs. revert w. induction votes as [|[v d] votes IH]; intros w Hnd; cbn [add_weights].
  - intros [= <-]. exists []. split; [constructor|]. split; [|unfold lenN; cbn; lia].
    intros v. rewrite elem_of_nil. split; [done|]. intros (d & H & _). by apply elem_of_nil in H.
  - destruct (walk (size m) m start (cp_root (ad_head d))) as [l|] eqn:E; [|done]. intros Hw.
    cbn [map fst] in Hnd. apply NoDup_cons in Hnd as [Hni Hnd].
    destruct (IH _ Hnd Hw) as (vs & Hvs & Hmem & Hcnt).
    destruct (walk_spec _ _ _ _ _ Hd E) as [Hl Hlm].
    rewrite (weight_bump_walk l w r Hl) in Hcnt.
    assert (v ∉ vs) as Hv.
    { rewrite Hmem. intros (d' & Hin & _). apply Hni. apply elem_of_list_fmap. by exists (v, d'). }
    destruct (decide (r ∈ l)) as [Hin|Hin].
    + exists (v :: vs). split; [by constructor|]. split; [|rewrite Hcnt; unfold lenN; cbn [length]; lia].
      intros u. rewrite elem_of_cons, Hmem. split.
      * intros [->|(d' & Hd' & Hde)]; [exists d; split; [by left|]; by apply Hlm|].
        exists d'. split; [by right|done].
      * intros (d' & Hd' & Hde). apply elem_of_cons in Hd' as [[= -> ->]|Hd']; [by left|]. right. eauto.
    + exists vs. split; [done|]. split; [|lia].
      intros u. rewrite Hmem. split.
      * intros (d' & Hd' & Hde). exists d'. split; [by right|done].
      * intros (d' & Hd' & Hde). apply elem_of_cons in Hd' as [[= -> ->]|Hd']; [|eauto].
        exfalso. apply Hin, Hlm. split; [done|]. eauto.
Qed.

Lemma weights_count start blocks votes w r s p :
  slots_decrease (list_to_map blocks) ->
  (list_to_map blocks : BlockTree) !! r = Some (s, p) -> start < s ->
  NoDup (map fst votes) ->
  compute_block_weights start blocks votes = Some w ->
  counts (weight w r) (votes_for_subtree (list_to_map blocks) (list_to_map votes) r).
Proof.
  intros Hd Hr Hs Hnd Hw.
  destruct (add_weights_count _ _ _ _ _ _ _ _ Hd Hr Hs Hnd Hw) as (vs & Hvs & Hmem & Hcnt).
  exists vs. split; [done|]. split.
  - intros v. rewrite Hmem. unfold votes_for_subtree. split; intros (d & H1 & H2); exists d; split; try done.
    + by apply elem_of_list_to_map.
    + by apply elem_of_list_to_map in H1.
  - rewrite Hcnt. unfold weight. rewrite lookup_empty. cbn. lia.
Qed.

Lemma weights_low start blocks votes w r :
  slots_decrease (list_to_map blocks) ->
  compute_block_weights start blocks votes = Some w ->
  (forall s p, (list_to_map blocks : BlockTree) !! r = Some (s, p) -> s <= start) ->
  w !! r = None.
Proof.
  intros Hd Hw Hr. unfold compute_block_weights in Hw. rewrite add_weights_concat in Hw.
  destruct (mapM _ votes) as [ls|] eqn:E; [|done]. injection Hw as <-.
  rewrite fold_bump_lookup. cbn zeta. destruct (decide _) as [_|Hne]; [by rewrite lookup_empty|].
  exfalso. assert (r ∈ concat ls) as Hin.
  { apply elem_of_list_In, (count_occ_In N.eq_dec). lia. }
  apply elem_of_concat in Hin as (l & Hrl & Hl).
  apply mapM_Some in E. apply elem_of_list_lookup in Hl as [i Hi].
  destruct (Forall2_lookup_r _ _ _ _ _ E Hi) as (e & _ & He).
  destruct (walk_spec _ _ _ _ _ Hd He) as [_ Hm]. apply Hm in Hrl as (_ & s & p & Hs & Hlt).
  specialize (Hr _ _ Hs). lia.
Qed.

(** ** The descent *)
Lemma children_spec blocks w ms h c :
  NoDup (map fst blocks) ->
  c ∈ children blocks w ms h <-> h <> ZERO /\ eligible (list_to_map blocks) (weight w) ms h c.
Proof.
  intros Hnd. unfold children. rewrite elem_of_list_omap. unfold eligible. split.
  - intros ([r [s p]] & Hin & He). destruct (N.eqb_spec p ZERO) as [|Hz]; [done|].
    destruct ((0 <? ms) && (weight w r <? ms)) eqn:Em; [done|].
    destruct (N.eqb_spec p h) as [->|]; [|done]. injection He as ->.
    split; [done|]. split; [|lia]. exists s. by apply elem_of_list_to_map.
  - intros (Hz & (s & Hs) & Hm). exists (c, (s, h)). split; [by apply elem_of_list_to_map_2|].
    destruct (N.eqb_spec h ZERO) as [|_]; [done|]. rewrite N.eqb_refl.
    assert ((0 <? ms) && (weight w c <? ms) = false) as ->; [lia|done].
Qed.

Lemma descend_greedy f blocks w ms h h' :
  NoDup (map fst blocks) -> (list_to_map blocks : BlockTree) !! ZERO = None -> h <> ZERO ->
  descend f blocks w ms h = Some h' ->
  greedy (list_to_map blocks) (weight w) ms h h'.
Proof.
  intros Hnd Hz. revert h. induction f as [|f IH]; intros h Hh; cbn [descend];
    destruct (children blocks w ms h) as [|c cs] eqn:E; try done.
  - intros [= <-]. apply greedy_leaf. intros c Hc.
    assert (c ∈ children blocks w ms h) as Hin by (by apply children_spec).
    rewrite E in Hin. by apply elem_of_nil in Hin.
  - intros [= <-]. apply greedy_leaf. intros c Hc.
    assert (c ∈ children blocks w ms h) as Hin by (by apply children_spec).
    rewrite E in Hin. by apply elem_of_nil in Hin.
  - intros Hd. destruct (max_key_spec w c cs) as [H1 H2]. rewrite <- E in H1, H2.
    apply children_spec in H1 as [_ H1]; [|done].
    eapply greedy_step; [exact H1| |].
    + intros c' Hc'. assert (key_le w c' (max_key w c cs) = true) as Hk.
      { apply H2. by apply children_spec. }
      unfold key_le in Hk. unfold not_better. lia.
    + apply IH; [|done]. destruct H1 as [[s Hs] _]. intros Hz'. rewrite Hz' in Hs. congruence.
Qed.

Lemma descend_total f blocks w ms h :
  NoDup (map fst blocks) -> slots_decrease (list_to_map blocks) ->
  (forall s p, (list_to_map blocks : BlockTree) !! h = Some (s, p) ->
     (countb (above s) blocks <= f)%nat) ->
  is_Some ((list_to_map blocks : BlockTree) !! h) ->
  is_Some (descend f blocks w ms h).
Proof.
  intros Hnd Hd. revert h. induction f as [|f IH]; intros h Hf [[s p] Hh]; cbn [descend];
    destruct (children blocks w ms h) as [|c cs] eqn:E; [by eexists| |by eexists|].
  - exfalso. assert (c ∈ children blocks w ms h) as Hc by (rewrite E; left).
    apply children_spec in Hc as (_ & (s' & Hs') & _); [|done].
    pose proof (Hd _ _ _ _ _ Hs' Hh) as Hlt. specialize (Hf _ _ Hh).
    assert (countb (fun _ => false) blocks < countb (above s) blocks)%nat; [|lia].
    apply countb_lt with (c, (s', h)); [done|by apply elem_of_list_to_map_2|done|cbn; lia].
  - destruct (max_key_spec w c cs) as [H1 _]. rewrite <- E in H1.
    apply children_spec in H1 as (_ & (s' & Hs') & _); [|done].
    pose proof (Hd _ _ _ _ _ Hs' Hh) as Hlt. specialize (Hf _ _ Hh).
    apply IH; [|by eexists]. intros s2 p2 Hs2. rewrite Hs' in Hs2. injection Hs2 as <- <-.
    assert (countb (above s') blocks < countb (above s) blocks)%nat; [|lia].
    apply countb_lt with (max_key w c cs, (s', h)); [intros y; cbn; lia|by apply elem_of_list_to_map_2|cbn; lia|cbn; lia].
Qed.

Lemma greedy_descends m W ms h h' :
  is_Some (m !! h) -> greedy m W ms h h' -> descends m h' h.
Proof.
  intros Hh Hg. induction Hg as [h Hl|h c h' [[s Hs] _] _ Hg IH].
  - destruct Hh as [e He]. by eapply desc_refl.
  - eapply descends_trans; [by apply IH; eexists|].
    destruct Hh as [e He]. eapply desc_step; [done|]. by eapply desc_refl.
Qed.

Lemma greedy_leaf_end m W ms h h' : greedy m W ms h h' -> forall c, ~ eligible m W ms h' c.
Proof. induction 1; done. Qed.

Lemma ghost_spec start blocks votes ms s p :
  start <> ZERO -> NoDup (map fst blocks) -> (list_to_map blocks : BlockTree) !! ZERO = None ->
  slots_decrease (list_to_map blocks) ->
  (list_to_map blocks : BlockTree) !! start = Some (s, p) ->
  exists h w,
    compute_lmd_ghost_head start blocks votes ms = Some (h, w) /\
    compute_block_weights s blocks votes = Some w /\
    greedy (list_to_map blocks) (weight w) ms start h /\
    descends (list_to_map blocks) h start.
Proof.
  intros Hs Hnd Hz Hd Hst. unfold compute_lmd_ghost_head.
  destruct blocks as [|e es]; [cbn in Hst; by rewrite lookup_empty in Hst|].
  destruct (N.eqb_spec start ZERO) as [|_]; [done|]. rewrite Hst.
  destruct (add_weights_total (list_to_map (e :: es)) s votes ∅ Hd) as [w Hw].
  unfold compute_block_weights. rewrite Hw.
  destruct (descend_total (length (e :: es)) (e :: es) w ms start Hnd Hd) as [h Hh];
    [intros; apply countb_length|by eexists|].
  rewrite Hh. exists h, w. split; [done|]. split; [done|].
  assert (greedy (list_to_map (e :: es)) (weight w) ms start h) as Hg by (by eapply descend_greedy).
  split; [done|]. eapply greedy_descends; [by eexists|done].
Qed.

(** Blocks strictly above the start slot on the greedy path pass the threshold. *)
Lemma greedy_path_weight m W ms h h' b :
  slots_decrease m -> is_Some (m !! h) ->
  greedy m W ms h h' -> descends m h' b -> descends m b h -> b <> h -> ms = 0 \/ ms <= W b.
Proof.
  intros Hd Hh Hg. revert b. induction Hg as [h Hl|h c h' [[s Hs] Hw] Hbest Hg IH]; intros b H1 H2 Hne.
  - exfalso. destruct Hh as [[sh ph] Hh].
    destruct (descends_in _ _ _ H1) as [_ [[sb pb] Hb]].
    destruct (descends_slot _ _ _ _ _ _ _ Hd H1 Hh Hb) as [Hle Heq].
    destruct (descends_slot _ _ _ _ _ _ _ Hd H2 Hb Hh) as [Hle' _].
    apply Hne. symmetry. apply Heq. lia.
  - destruct (decide (b = c)) as [->|Hbc]; [done|].
    apply IH; [by eexists|done| |done].
    (* ancestors of h' are linearly ordered *)
    assert (descends m h' c) as Hc by (eapply greedy_descends; [by eexists|done]).
    assert (descends m b c \/ descends m c b) as [H|H]; [|done|].
    { clear -H1 Hc. revert H1. induction Hc as [r e He|r s p a Hr Ha IH]; intros H1; [by right|].
      inversion H1 as [r' e' He'|r' s' p' a' Hr' Ha' E1 E2]; subst.
      - left. eapply desc_step; eauto.
      - rewrite Hr in Hr'. injection Hr' as <- <-. by apply IH. }
    exfalso. inversion H as [r' e' He' E1 E2|r' s' p' a' Hr' Ha' E1 E2]; subst; [done|].
    rewrite Hs in Hr'. injection Hr' as <- <-.
    destruct Hh as [[sh ph] Hh]. destruct (descends_in _ _ _ H2) as [[[sb pb] Hb] _].
    destruct (descends_slot _ _ _ _ _ _ _ Hd Ha' Hh Hb) as [Hle Heq].
    destruct (descends_slot _ _ _ _ _ _ _ Hd H2 Hb Hh) as [Hle' _].
    apply Hne. symmetry. apply Heq. lia.
Qed.

Lemma counts_supported k n P : counts k P -> (n * 2 + 2) / 3 <= k -> supported n P.
Proof.
  intros (vs & Hnd & Hm & Hl) Hle. exists vs. split; [done|]. split; [intros v; apply Hm|]. lia.
Qed.
Lemma supported_counts k n P : counts k P -> supported n P -> (n * 2 + 2) / 3 <= k.
Proof.
  intros (vs & Hnd & Hm & Hl) (us & Hnd' & Hm' & Hl').
  assert (us ⊆+ vs) as Hsub by (apply NoDup_submseteq; [done|]; intros v Hv; by apply Hm, Hm').
  apply submseteq_length in Hsub. unfold lenN in *. lia.
Qed.

Lemma safe_target_spec n start blocks votes s p :
  0 < n -> start <> ZERO -> NoDup (map fst blocks) -> NoDup (map fst votes) ->
  (list_to_map blocks : BlockTree) !! ZERO = None ->
  slots_decrease (list_to_map blocks) ->
  (list_to_map blocks : BlockTree) !! start = Some (s, p) ->
  exists h, safe_target n start blocks votes = Some h /\
    descends (list_to_map blocks) h start /\
    (forall b, descends (list_to_map blocks) h b -> descends (list_to_map blocks) b start -> b <> start ->
       supported n (votes_for_subtree (list_to_map blocks) (list_to_map votes) b)) /\
    (forall c sc, (list_to_map blocks : BlockTree) !! c = Some (sc, h) ->
       ~ supported n (votes_for_subtree (list_to_map blocks) (list_to_map votes) c)).
Proof.
  intros Hn Hst Hnd Hndv Hz Hd Hs.
  destruct (ghost_spec start blocks votes (safe_target_score n) s p Hst Hnd Hz Hd Hs)
    as (h & w & Hg & Hw & Hgr & Hde).
  exists h. unfold safe_target. rewrite Hg. cbn [fmap option_fmap option_map fst].
  split; [done|]. split; [done|]. split.
  - intros b H1 H2 Hne.
    destruct (descends_in _ _ _ H2) as [[[sb pb] Hb] _].
    destruct (descends_slot _ _ _ _ _ _ _ Hd H2 Hb Hs) as [Hle Heq].
    assert (s < sb) as Hlt by (destruct (decide (s = sb)) as [E|E]; [by apply Heq in E|lia]).
    eapply counts_supported; [by eapply weights_count|].
    destruct (greedy_path_weight _ _ _ start _ b Hd ltac:(eauto) Hgr H1 H2 Hne) as [H|H]; [|done].
    unfold safe_target_score in H. lia.
  - intros c sc Hc Hsup.
    apply (greedy_leaf_end _ _ _ _ _ Hgr c). split; [by eexists|]. right.
    destruct (descends_in _ _ _ Hde) as [[[sh ph] Hh] _].
    destruct (descends_slot _ _ _ _ _ _ _ Hd Hde Hh Hs) as [Hle _].
    pose proof (Hd _ _ _ _ _ Hc Hh).
    eapply supported_counts; [|exact Hsup]. eapply weights_count; [exact Hd|exact Hc| |exact Hndv|exact Hw]; lia.
Qed.
