(** Proofs of the storage property theorems. *)
From Verif Require Export StorageProofs.

(** ** C21 *)
Lemma head_run_inv A d0 d1 :
  head_run A d0 d1 ->
  index_exact (db_tab d0) A (db_head d0) ->
  (exists l, path (db_tab d0) A (db_head d0) l /\ descending (db_tab d0) l) ->
  index_exact (db_tab d1) A (db_head d1) /\
  exists l, path (db_tab d1) A (db_head d1) l /\ descending (db_tab d1) l.
Proof.
  induction 1 as [d|d d1 d2 new l just fin Hrun IH Hp Hd Happ|d d1 d2 Hrun IH [Hk Hr] Hh]; intros Hix Hl.
  - done.
  - destruct (IH Hix Hl) as (Hix1 & lo & Hpo & Hdo).
    destruct (head_change d1 A new lo l just fin Hix1 Hpo Hdo Hp Hd) as (roots & Happ' & Hix2).
    rewrite Happ in Happ'. simplify_eq. cbn. split; [done|]. exists l. split.
    + by apply (path_keep (db_tab d1)).
    + by apply (descending_keep (db_tab d1) _ A new).
  - destruct (IH Hix Hl) as (Hix1 & lo & Hpo & Hdo). rewrite Hh.
    assert (path (db_tab d2) A (db_head d1) lo) as Hp2 by (by eapply path_keep).
    split; [|exists lo; split; [done|by eapply descending_keep]].
    intros s r. rewrite Hr, (Hix1 s r). split; intros (l & h & Hp & Hin & Hhd & Hs).
    + exists l, h. split_and!; try done; [by eapply path_keep|by apply Hk].
    + rewrite (path_det _ _ _ _ _ Hp Hp2) in Hin.
      destruct (path_stored _ _ _ _ r Hpo Hin) as [h' Hh'].
      pose proof (Hk _ _ Hh'). simplify_eq. exists lo, h. done.
Qed.

Lemma C21_runs_pf A d0 d1 new l just fin :
  index_exact (db_tab d0) A (db_head d0) ->
  (exists l0, path (db_tab d0) A (db_head d0) l0 /\ descending (db_tab d0) l0) ->
  head_run A d0 d1 ->
  index_exact (db_tab d1) A (db_head d1) /\
  (path (db_tab d1) A new l -> descending (db_tab d1) l ->
   exists d2, apply_checkpoints d1 new just fin = Ok d2 /\ db_head d2 = new /\
     index_exact (db_tab d2) A new /\
     db_just d2 = default (db_just d1) just /\ db_fin d2 = default (db_fin d1) fin /\
     db_safe d2 = db_safe d1 /\ db_time d2 = db_time d1 /\
     db_tab d2 = set_roots (db_tab d1) (t_roots (db_tab d2))).
Proof.
  intros Hix Hl Hrun. destruct (head_run_inv _ _ _ Hrun Hix Hl) as (Hix1 & lo & Hpo & Hdo).
  split; [done|]. intros Hp Hd.
  destruct (head_change d1 A new lo l just fin Hix1 Hpo Hdo Hp Hd) as (roots & Happ' & Hix2).
  eexists. split; [exact Happ'|]. done.
Qed.

Lemma path_single t A h : t_headers t !! A = Some h -> path t A A [A].
Proof. by econstructor. Qed.
Lemma descending_single t r : descending t [r].
Proof. intros i a b h h' _ Hb. destruct i; done. Qed.

Lemma init_index hash_state hash_header t a body d :
  init_store hash_state hash_header t a body = Ok d ->
  t_roots t = ∅ ->
  index_exact (db_tab d) (db_head d) (db_head d) /\
  path (db_tab d) (db_head d) (db_head d) [db_head d] /\ descending (db_tab d) [db_head d].
Proof.
  intros Hi Hr. apply init_unfold in Hi as [_ ->]. cbn [db_tab db_head].
  set (root := hash_header _). split_and!; [|by eapply path_single, lookup_insert|apply descending_single].
  intros s r. cbn [t_roots]. rewrite Hr. split.
  - intros H. apply lookup_insert_Some in H as [[<- <-]|[_ H]]; [|by rewrite lookup_empty in H].
    eexists [root], _. split_and!; [by eapply path_single, lookup_insert|by left|cbn; by rewrite lookup_insert|done].
  - intros (l & h & Hp & Hin & Hh & Hs).
    assert (r = root) as ->.
    { inversion Hp; simplify_eq. by apply elem_of_list_singleton in Hin. }
    cbn in Hh. rewrite lookup_insert in Hh. simplify_eq. by rewrite lookup_insert.
Qed.

Section Range.
  Context (hash_body : list AggAtt -> H256) (t : Tables).
  Notation sl := (slot_of t).

  Lemma filter_none (P : H256 -> Prop) {dP : forall x, Decision (P x)} (l : list H256) :
    (forall x, x ∈ l -> ~ P x) -> filter P l = [].
  Proof.
    induction l as [|x l IH]; intros Hn; [done|].
    rewrite filter_cons_False by (apply Hn; left). apply IH. intros y Hy. apply Hn. by right.
  Qed.
  Lemma filter_ext_in (P Q : H256 -> Prop) {dP : forall x, Decision (P x)}
      {dQ : forall x, Decision (Q x)} (l : list H256) :
    (forall x, x ∈ l -> P x <-> Q x) -> filter P l = filter Q l.
  Proof.
    induction l as [|x l IH]; intros Hn; [done|].
    assert (filter P l = filter Q l) as E by (apply IH; intros y Hy; apply Hn; by right).
    assert (P x <-> Q x) as Hx by (apply Hn; left).
    destruct (decide (P x)) as [Hp|Hp].
    - rewrite !filter_cons_True by tauto. by rewrite E.
    - rewrite !filter_cons_False by tauto. done.
  Qed.

  Lemma filter_split (l : list H256) s hi :
    StronglySorted (fun a b => sl a < sl b) l -> s < hi ->
    filter (fun r => s <= sl r < hi) l =
    match find (fun r => sl r =? s) l with Some r => [r] | None => [] end
      ++ filter (fun r => s + 1 <= sl r < hi) l.
  Proof.
    intros Hs Hlt. induction l as [|x l IH]; [done|].
    inversion Hs as [|? ? Hs' Hall]; subst. cbn [find]. rewrite Forall_forall in Hall.
    destruct (N.eqb_spec (sl x) s) as [He|Hne].
    - rewrite filter_cons_True by lia. rewrite (filter_cons_False (fun r => s + 1 <= sl r < hi)) by lia.
      cbn. f_equal. apply filter_ext_in. intros y Hy. pose proof (Hall _ Hy). cbn in *. lia.
    - destruct (decide (s + 1 <= sl x < hi)) as [Hx|Hx].
      + rewrite !filter_cons_True by (done || lia). 
        replace (find (fun r => sl r =? s) l) with (@None H256); [cbn|].
        { f_equal. apply filter_ext_in. intros y Hy. pose proof (Hall _ Hy). cbn in *. lia. }
        symmetry. destruct (find _ l) as [y|] eqn:Hf; [|done].
        apply find_some in Hf as [Hf1 Hf2]. rewrite <- elem_of_list_In in Hf1.
        pose proof (Hall _ Hf1). cbn in *. lia.
      + rewrite (filter_cons_False (fun r => s <= sl r < hi)) by lia.
        rewrite (filter_cons_False (fun r => s + 1 <= sl r < hi)) by lia. by apply IH.
  Qed.

  Lemma blocks_from_spec (l : list H256) n s :
    StronglySorted (fun a b => sl a < sl b) l ->
    (forall x r, t_roots t !! x = Some r <-> r ∈ l /\ sl r = x) ->
    blocks_from hash_body n s t =
    omap (get_signed_block hash_body t) (filter (fun r => s <= sl r < s + N.of_nat n) l).
  Proof.
    intros Hs Hix. revert s. induction n as [|n IH]; intros s; cbn [blocks_from].
    - rewrite filter_none; [done|]. intros x _. lia.
    - rewrite filter_split by (done || lia). rewrite omap_app.
      replace (s + N.of_nat (S n)) with (s + 1 + N.of_nat n) by lia. rewrite <- IH.
      destruct (t_roots t !! s) as [r|] eqn:Hr.
      + apply Hix in Hr as [Hin Hsl].
        assert (find (fun r0 => sl r0 =? s) l = Some r) as ->.
        { destruct (find _ l) as [y|] eqn:Hf.
          - apply find_some in Hf as [Hf1 Hf2]. rewrite <- elem_of_list_In in Hf1.
            assert (t_roots t !! s = Some y) as H1 by (apply Hix; split; [done|lia]).
            assert (t_roots t !! s = Some r) as H2 by (by apply Hix). congruence.
          - rewrite elem_of_list_In in Hin. pose proof (find_none _ _ Hf r Hin) as H. cbn in H. lia. }
        cbn. by destruct (get_signed_block hash_body t r).
      + destruct (find _ l) as [y|] eqn:Hf; [|done].
        apply find_some in Hf as [Hf1 Hf2]. rewrite <- elem_of_list_In in Hf1.
        assert (t_roots t !! s = Some y) as H1 by (apply Hix; split; [done|lia]). congruence.
  Qed.
End Range.

Lemma path_sorted t A r l :
  path t A r l -> descending t l -> StronglySorted (fun a b => slot_of t a < slot_of t b) (reverse l).
Proof.
  intros Hp. induction Hp as [h Hh|r h l Hne Hh Hp IH]; intros Hd.
  - repeat constructor.
  - rewrite reverse_cons.
    assert (StronglySorted (fun a b => slot_of t a < slot_of t b) (reverse l)) as Hs
      by (apply IH; by eapply descending_tail).
    assert (forall x, x ∈ reverse l -> slot_of t x < slot_of t r) as Hall.
    { intros x Hx. rewrite elem_of_reverse in Hx. eapply descending_head; [by econstructor|done|done]. }
    clear -Hs Hall. induction (reverse l) as [|y k IHk]; cbn; [repeat constructor|].
    inversion Hs as [|? ? Hs' Hf]; subst. constructor.
    + apply IHk; [done|]. intros x Hx. apply Hall. by right.
    + apply Forall_app. split; [done|]. constructor; [|constructor]. apply Hall. left.
Qed.

Lemma C21_range_pf hash_body t A head l lo hi :
  index_exact t A head -> path t A head l -> descending t l ->
  get_signed_blocks_by_slot_range hash_body t lo hi =
  omap (get_signed_block hash_body t) (filter (fun r => lo <= slot_of t r <= hi) (reverse l)).
Proof.
  intros Hix Hp Hd. unfold get_signed_blocks_by_slot_range.
  rewrite (blocks_from_spec hash_body t (reverse l)).
  - f_equal. apply filter_ext_in. intros x Hx. lia.
  - by eapply path_sorted.
  - intros x r. rewrite (Hix x r), elem_of_reverse. split.
    + intros (l' & h & Hp' & Hin & Hh & Hs). rewrite (path_det _ _ _ _ _ Hp' Hp) in Hin.
      split; [done|]. by rewrite (slot_of_header _ _ _ Hh).
    + intros [Hin Hs]. destruct (path_stored _ _ _ _ r Hp Hin) as [h Hh].
      exists l, h. split_and!; try done. by rewrite <- (slot_of_header _ _ _ Hh).
Qed.

(** ** C22 *)
Section C22.
  Context (hash_state : State -> H256) (hash_header : Header -> H256)
          (hash_body : list AggAtt -> H256).
  Lemma C22_read_back_pf anchor t c w r :
    (forall h h', hash_header h = hash_header h' -> h = h') ->
    s_slot anchor = h_slot (s_header anchor) ->
    state_run hash_state hash_header hash_body anchor t c w ->
    (exists c', get_state t c r = Ok (w !! r, c')) /\ read_state t r = Ok (w !! r) /\
    (has_state t r = true <-> is_Some (w !! r)).
  Proof.
    intros Hinj Ha Hrun. pose proof (state_run_inv _ _ _ Hinj _ _ _ _ Ha Hrun) as Hi. split_and!.
    - destruct (get_state_spec _ _ _ _ _ r Hi) as (c' & -> & _). eauto.
    - destruct (w !! r) as [s|] eqn:Hw.
      + by eapply read_spec.
      + by eapply read_none.
    - rewrite (has_state_spec _ _ _ _ _ _ Hi). by rewrite bool_decide_eq_true.
  Qed.
End C22.

(** ** C23 *)
Section C23.
  Context (hash_header : Header -> H256) (hash_body : list AggAtt -> H256).
  Context (hinj : forall h h', hash_header h = hash_header h' -> h = h').
  Context (binj : forall l l', hash_body l = hash_body l' -> l = l').
  Notation broot := (block_root hash_header hash_body).
  Notation step := (block_step hash_header hash_body).

  Lemma broot_inj b b' : broot b = broot b' -> b = b'.
  Proof.
    intros H. apply hinj in H. unfold header_of in H. injection H as H1 H2 H3 H4 H5.
    apply binj in H5. destruct b, b'; cbn in *. by subst.
  Qed.

  (** What the tables hold for block [b]. *)
  Definition holds (t : Tables) (b : Block) (p : option N) : Prop :=
    t_headers t !! broot b = Some (header_of hash_body b) /\
    (b_atts b <> [] -> t_bodies t !! broot b = Some (b_atts b)) /\
    t_proofs t !! (b_slot b, broot b) = p.

  Lemma holds_read t b p :
    holds t b p ->
    get_signed_block hash_body t (broot b) =
      match p with
      | Some p => Some (mkSB b p)
      | None => if b_slot b =? 0 then Some (mkSB b EMPTY_PROOF) else None
      end.
  Proof.
    intros (H1 & H2 & H3). unfold get_signed_block. rewrite H1. cbn [header_of h_body_root h_slot].
    unfold EMPTY_BODY_ROOT. rewrite H3.
    assert ((if hash_body (b_atts b) =? hash_body [] then Some [] else t_bodies t !! broot b) = Some (b_atts b)) as ->.
    { destruct (N.eqb_spec (hash_body (b_atts b)) (hash_body [])) as [He|Hne].
      - by apply binj in He as ->.
      - apply H2. intros E. by rewrite E in Hne. }
    assert (from_header_and_body (header_of hash_body b) (b_atts b) = b) as -> by (by destruct b).
    by destruct p.
  Qed.

  Lemma holds_write t sb : holds (write_signed_block hash_body t (broot (sb_block sb)) sb) (sb_block sb) (Some (sb_proof sb)).
  Proof.
    unfold holds, write_signed_block, EMPTY_BODY_ROOT. cbn [header_of h_body_root h_slot].
    destruct (N.eqb_spec (hash_body (b_atts (sb_block sb))) (hash_body [])) as [He|Hne]; cbn; rewrite !lookup_insert; split_and!; try done.
    intros H. by apply binj in He.
  Qed.
  Lemma holds_write_other t sb b p :
    sb_block sb <> b -> holds t b p -> holds (write_signed_block hash_body t (broot (sb_block sb)) sb) b p.
  Proof.
    intros Hne (H1 & H2 & H3).
    assert (broot (sb_block sb) <> broot b) as Hr by (by intros ?%broot_inj).
    unfold holds, write_signed_block. destruct (_ =? _); cbn; rewrite !lookup_insert_ne by congruence; done.
  Qed.
  Lemma holds_live t b p l : holds t b p -> holds (set_live t l) b p.
  Proof. done. Qed.
  Lemma holds_prune t b p fin tip :
    holds t b p ->
    holds (prune_old_block_proofs t fin tip).1 b
      (if decide (b_slot b + 21600 < tip /\ tip - 21600 <= fin) then None else p).
  Proof.
    intros (H1 & H2 & H3). unfold prune_old_block_proofs.
    change BLOCK_PROOF_PRUNING_RANGE with 21600.
    destruct ((fin <? tip - 21600) || (tip - 21600 =? 0)) eqn:E.
    - rewrite decide_False; [done|]. apply orb_true_iff in E. lia.
    - apply orb_false_iff in E as [E1 E2]. split_and!; try done. cbn.
      destruct (decide _) as [[Hd _]|Hd].
      + apply map_filter_lookup_None. right. intros v _. cbn. lia.
      + destruct p as [p|].
        * apply map_filter_lookup_Some. split; [done|]. cbn. lia.
        * apply map_filter_lookup_None. by left.
  Qed.

  Lemma pruned_dec s ops : pruned s ops \/ ~ pruned s ops.
  Proof.
    induction ops as [|o ops IH].
    - right. intros (f & tp & H & _). inversion H.
    - destruct IH as [(f & tp & Hin & H)|IH].
      + left. exists f, tp. split; [by right|done].
      + destruct o as [sb|sb|fin tip].
        * right. intros (f & tp & Hin & H). apply elem_of_cons in Hin as [|Hin]; [done|]. apply IH. by exists f, tp.
        * right. intros (f & tp & Hin & H). apply elem_of_cons in Hin as [|Hin]; [done|]. apply IH. by exists f, tp.
        * destruct (decide (s + 21600 < tip /\ tip - 21600 <= fin)) as [Hd|Hd].
          -- left. exists fin, tip. split; [by left|done].
          -- right. intros (f & tp & Hin & H). apply elem_of_cons in Hin as [[= -> ->]|Hin]; [done|]. apply IH. by exists f, tp.
  Qed.

  Lemma holds_run t b p ops :
    holds t b p -> untouched b ops ->
    (~ pruned (b_slot b) ops -> holds (fold_left step ops t) b p) /\
    (pruned (b_slot b) ops \/ p = None -> holds (fold_left step ops t) b None).
  Proof.
    revert t p. induction ops as [|o ops IH]; intros t p Hh Hu.
    - cbn. split; [done|]. intros [(f & tp & H & _)| ->]; [inversion H|done].
    - assert (untouched b ops) as Hu' by (intros o' Ho'; apply Hu; by right).
      cbn [fold_left]. specialize (Hu o ltac:(left)) as Ho.
      assert (forall p', holds (step t o) b p' ->
        match o with bo_prune fin tip => p' = if decide (b_slot b + 21600 < tip /\ tip - 21600 <= fin) then None else p
                | _ => p' = p end ->
        (¬ pruned (b_slot b) (o :: ops) → holds (fold_left step ops (step t o)) b p)
        ∧ (pruned (b_slot b) (o :: ops) ∨ p = None → holds (fold_left step ops (step t o)) b None)) as Hgo.
      { intros p' Hp' Hm. destruct (IH _ _ Hp' Hu') as [IH1 IH2]. split.
        - intros Hn. assert (p' = p) as <-.
          { destruct o; try done. rewrite decide_False in Hm; [done|]. intros [? ?]. apply Hn.
            exists fin, tip. split; [by left|done]. }
          apply IH1. intros (f & tp & Hin & H). apply Hn. exists f, tp. split; [by right|done].
        - intros [(f & tp & Hin & H)| ->].
          + apply elem_of_cons in Hin as [<-|Hin].
            * apply IH2. right. by rewrite decide_True in Hm.
            * apply IH2. left. by exists f, tp.
          + apply IH2. right. destruct o; try done. by destruct (decide _). }
      destruct o as [sb|sb|fin tip]; cbn [block_step] in *.
      + eapply Hgo; [|done]. apply holds_live. by apply holds_write_other.
      + eapply Hgo; [|done]. by apply holds_write_other.
      + eapply Hgo; [by apply holds_prune|done].
  Qed.

  Lemma C23_read_back_pf t w sb ops :
    w = bo_import sb \/ w = bo_pending sb ->
    untouched (sb_block sb) ops ->
    let got := get_signed_block hash_body (fold_left step (w :: ops) t) (broot (sb_block sb)) in
    (~ pruned (b_slot (sb_block sb)) ops -> got = Some sb) /\
    (pruned (b_slot (sb_block sb)) ops ->
       got = if b_slot (sb_block sb) =? 0 then Some (mkSB (sb_block sb) EMPTY_PROOF) else None).
  Proof.
    intros Hw Hu got. subst got. cbn [fold_left].
    assert (holds (step t w) (sb_block sb) (Some (sb_proof sb))) as Hh.
    { destruct Hw as [->| ->]; cbn [block_step]; [apply holds_live|]; apply holds_write. }
    destruct (holds_run _ _ _ _ Hh Hu) as [H1 H2]. split; intros Hp.
    - rewrite (holds_read _ _ _ (H1 Hp)). by destruct sb.
    - by rewrite (holds_read _ _ _ (H2 (or_introl Hp))).
  Qed.

  (** Nothing else is ever returned. *)
  Lemma step_row t o r :
    (exists sb, (o = bo_import sb \/ o = bo_pending sb) /\ r = broot (sb_block sb)) \/
    ((forall sb, o = bo_import sb \/ o = bo_pending sb -> r <> broot (sb_block sb)) /\
     t_headers (step t o) !! r = t_headers t !! r /\ t_bodies (step t o) !! r = t_bodies t !! r /\
     forall s, t_proofs (step t o) !! (s, r) = t_proofs t !! (s, r) \/ t_proofs (step t o) !! (s, r) = None).
  Proof.
    destruct o as [sb|sb|fin tip]; cbn [block_step].
    1,2: destruct (decide (r = broot (sb_block sb))) as [->|Hne]; [left; eauto|right];
      (split; [intros sb' [?|?]; by simplify_eq|]);
      unfold insert_signed_block, insert_pending_block, write_signed_block; destruct (_ =? _); cbn;
      rewrite ?lookup_insert_ne by done; (split_and!; [done|done|]); intros s; left;
      rewrite lookup_insert_ne by congruence; done.
    right. unfold prune_old_block_proofs. split; [by intros sb [?|?]|].
    destruct (_ || _); cbn; split_and!; try done; intros s; [by left|].
    destruct (t_proofs t !! (s, r)) as [p|] eqn:E.
    - destruct (decide (s < tip - BLOCK_PROOF_PRUNING_RANGE)).
      + right. apply map_filter_lookup_None. right. intros v _. cbn. lia.
      + left. apply map_filter_lookup_Some. split; [done|]. cbn. lia.
    - right. apply map_filter_lookup_None. by left.
  Qed.
  Lemma C23_only_written_pf ops r sb :
    get_signed_block hash_body (fold_left step ops empty_tables) r = Some sb ->
    exists p, r = broot (sb_block sb) /\ written ops (mkSB (sb_block sb) p) /\
      (sb_proof sb = p \/ (b_slot (sb_block sb) = 0 /\ sb_proof sb = EMPTY_PROOF)).
  Proof.
    assert (forall ops,
      let t := fold_left step ops empty_tables in
      forall r h, t_headers t !! r = Some h -> exists b p, r = broot b /\ written ops (mkSB b p) /\ 
        holds t b (t_proofs t !! (b_slot b, broot b)) /\
        forall p', t_proofs t !! (b_slot b, broot b) = Some p' -> written ops (mkSB b p')) as Hinv.
    { clear ops r sb. intros ops. induction ops as [|o ops IH] using rev_ind; intros t r h Hr.
      { cbn in Hr. by rewrite lookup_empty in Hr. }
      subst t. rewrite fold_left_app in *. cbn [fold_left] in *.
      set (t := fold_left step ops empty_tables) in *.
      assert (forall x, written ops x -> written (ops ++ [o]) x) as Hmono.
      { intros x [?|?]; [left|right]; set_solver. }
      destruct (step_row t o r) as [(sb & Ho & ->)|(Hno & Hh & Hb & Hp)].
      - assert (holds (step t o) (sb_block sb) (Some (sb_proof sb))) as Hhold.
        { destruct Ho as [->| ->]; cbn [block_step]; [apply holds_live|]; apply holds_write. }
        assert (written (ops ++ [o]) (mkSB (sb_block sb) (sb_proof sb))) as Hwr.
        { destruct sb. cbn. destruct Ho as [->| ->]; [left|right]; set_solver. }
        exists (sb_block sb), (sb_proof sb). destruct Hhold as (Ha & Hb & Hc). rewrite Hc.
        split_and!; try done. intros p' [= <-]. done.
      - rewrite Hh in Hr. destruct (IH r h Hr) as (b & p & -> & Hw & (Ha & Hb' & _) & Hpr).
        exists b, p. split_and!; [done|by apply Hmono| |].
        + split_and!; [by rewrite Hh|by rewrite Hb|done].
        + intros p' Hp'. apply Hmono, Hpr. destruct (Hp (b_slot b)) as [E|E]; congruence. }
    intros Hget. destruct (t_headers (fold_left step ops empty_tables) !! r) as [h|] eqn:Hr.
    2: { unfold get_signed_block in Hget. by rewrite Hr in Hget. }
    destruct (Hinv _ _ _ Hr) as (b & p & -> & Hw & Hh & Hpr).
    rewrite (holds_read _ _ _ Hh) in Hget.
    destruct (t_proofs _ !! _) as [p'|] eqn:E.
    - simplify_eq. exists p'. cbn. split_and!; [done|by apply Hpr|by left].
    - destruct (N.eqb_spec (b_slot b) 0); [|done]. simplify_eq. exists p. cbn. split_and!; try done. by right.
  Qed.
End C23.

(** ** C24 *)
Lemma C24_proofs_pf t fin tip s r :
  let t' := (prune_old_block_proofs t fin tip).1 in
  (t_proofs t' !! (s, r) = if decide (s + 21600 < tip /\ tip - 21600 <= fin) then None else t_proofs t !! (s, r)) /\
  t_headers t' = t_headers t /\ t_bodies t' = t_bodies t /\ t_states t' = t_states t /\
  t_diffs t' = t_diffs t /\ t_roots t' = t_roots t /\ t_live t' = t_live t.
Proof.
  unfold prune_old_block_proofs. change BLOCK_PROOF_PRUNING_RANGE with 21600.
  destruct ((fin <? tip - 21600) || (tip - 21600 =? 0)) eqn:E; cbn.
  - rewrite decide_False; [done|]. apply orb_true_iff in E. lia.
  - apply orb_false_iff in E as [E1 E2]. split_and!; try done.
    destruct (decide _) as [[Hd _]|Hd].
    + apply map_filter_lookup_None. right. intros v _. cbn. lia.
    + destruct (t_proofs t !! (s, r)) as [p|] eqn:Hp.
      * apply map_filter_lookup_Some. split; [done|]. cbn. lia.
      * apply map_filter_lookup_None. by left.
Qed.
Lemma C24_live_pf t fin s r :
  let t' := prune_live_chain t fin in
  (t_live t' !! (s, r) = if decide (s < fin) then None else t_live t !! (s, r)) /\
  t_headers t' = t_headers t /\ t_bodies t' = t_bodies t /\ t_proofs t' = t_proofs t /\
  t_states t' = t_states t /\ t_diffs t' = t_diffs t /\ t_roots t' = t_roots t.
Proof.
  unfold prune_live_chain. cbn. split_and!; try done. destruct (decide (s < fin)) as [Hd|Hd].
  - apply map_filter_lookup_None. right. intros v _. cbn. lia.
  - destruct (t_live t !! (s, r)) as [p|] eqn:Hp.
    + apply map_filter_lookup_Some. split; [done|]. cbn. lia.
    + apply map_filter_lookup_None. by left.
Qed.

(** ** C27 *)
Section C27.
  Context (hash_state : State -> H256) (hash_header : Header -> H256)
          (hash_body : list AggAtt -> H256).
  Lemma pair_consistent_iff s b :
    anchor_pair_is_consistent hash_state hash_body s b = true <->
    anchor_matches hash_state hash_body s b.
  Proof.
    unfold anchor_pair_is_consistent, anchor_matches.
    destruct (bool_decide _) eqn:E; cbn [negb].
    - apply bool_decide_eq_true in E. unfold set_state_root, header_of in E. cbn in E.
      injection E as H1 H2 H3 H4. fold (zeroed s).
      destruct (N.eqb_spec (h_state_root (s_header s)) ZERO) as [E1|E1]; cbn [negb andb].
      { rewrite N.eqb_eq. tauto. }
      destruct (N.eqb_spec (h_state_root (s_header s)) (hash_state (zeroed s))) as [E2|E2]; cbn [negb].
      + rewrite N.eqb_eq. tauto.
      + split; [done|]. tauto.
    - apply bool_decide_eq_false in E. split; [done|]. intros (H1 & H2 & H3 & H4 & _). destruct E.
      unfold set_state_root, header_of. cbn. congruence.
  Qed.

  Lemma init_ok t s body :
    (h_state_root (s_header s) = ZERO \/ h_state_root (s_header s) = hash_state (zeroed s)) ->
    exists d, init_store hash_state hash_header t s body = Ok d.
  Proof.
    intros H. unfold init_store. fold (zeroed s).
    destruct ((h_state_root (s_header s) =? ZERO) || (h_state_root (s_header s) =? hash_state (zeroed s))) eqn:E.
    - cbn [negb]. eauto.
    - apply orb_false_iff in E. destruct H; lia.
  Qed.
End C27.

Lemma C27_accepts_iff_pf hash_state hash_header hash_body t s b :
  (exists d, get_forkchoice_store hash_state hash_header hash_body t s b = Ok d) <->
  anchor_matches hash_state hash_body s b.
Proof.
  unfold get_forkchoice_store. rewrite <- (pair_consistent_iff hash_state hash_body s b).
  destruct (anchor_pair_is_consistent _ _ s b) eqn:E.
  - split; [done|]. intros _. apply init_ok. apply pair_consistent_iff in E as (_ & _ & _ & _ & H & _). done.
  - split; [by intros [? ?]|done].
Qed.
Lemma C27_never_panics_pf hash_state hash_header hash_body t s b :
  get_forkchoice_store hash_state hash_header hash_body t s b <> Panic.
Proof.
  unfold get_forkchoice_store. destruct (anchor_pair_is_consistent _ _ s b) eqn:E; [|done].
  apply pair_consistent_iff in E as (_ & _ & _ & _ & H & _).
  destruct (init_ok hash_state hash_header t s (Some (b_atts b)) H) as [d ->]. done.
Qed.
Lemma C27_anchor_store_pf hash_state hash_header hash_body t s b d :
  get_forkchoice_store hash_state hash_header hash_body t s b = Ok d ->
  let root := block_root hash_header hash_body b in
  db_head d = root /\ db_safe d = root /\ db_just d = mkCp root (b_slot b) /\
  db_fin d = mkCp root (b_slot b) /\ db_time d = 0 /\ db_gt d = s_genesis_time s /\
  t_headers (db_tab d) !! root = Some (header_of hash_body b) /\
  read_state (db_tab d) root = Ok (Some (with_header s (header_of hash_body b))) /\
  t_live (db_tab d) !! (b_slot b, root) = Some (b_parent b) /\
  t_roots (db_tab d) !! b_slot b = Some root /\
  ((forall l l', hash_body l = hash_body l' -> l = l') -> get_block hash_body (db_tab d) root = Some b) /\
  (forall r, r <> root -> t_headers (db_tab d) !! r = t_headers t !! r /\
                          t_states (db_tab d) !! r = t_states t !! r).
Proof.
  unfold get_forkchoice_store. destruct (anchor_pair_is_consistent _ _ s b) eqn:E; [|done].
  apply pair_consistent_iff in E as (H1 & H2 & H3 & H4 & H5 & H6). intros Hi.
  apply init_unfold in Hi as [_ Hd].
  assert (s_header (stored_anchor hash_state s) = header_of hash_body b) as Hh.
  { unfold stored_anchor, header_of, zeroed, set_state_root in *. cbn in *. congruence. }
  rewrite Hh, H1, H3 in Hd. cbn zeta. unfold block_root. set (root := hash_header _) in *. subst d. cbn.
  rewrite !lookup_insert. split_and!; try done.
  - unfold read_state. cbn. rewrite lookup_insert. do 2 f_equal. unfold stored_anchor in *. cbn in *. congruence.
  - intros binj. unfold get_block. cbn. rewrite !lookup_insert. cbn. unfold EMPTY_BODY_ROOT.
    destruct (N.eqb_spec (hash_body (b_atts b)) (hash_body [])) as [He|].
    + apply binj in He. unfold from_header_and_body. cbn. rewrite <- He. by destruct b.
    + unfold from_header_and_body. cbn. by destruct b.
  - intros r Hr. by rewrite !lookup_insert_ne.
Qed.

Lemma C24_recent_kept_pf t fin tip s r :
  fin <= s \/ tip <= s + 21600 ->
  t_proofs (prune_old_block_proofs t fin tip).1 !! (s, r) = t_proofs t !! (s, r).
Proof.
  intros H. destruct (C24_proofs_pf t fin tip s r) as [-> _]. rewrite decide_False; [done|]. lia.
Qed.
Lemma C24_prune_when_pf d fin :
  prune_after d (finalization_advanced d (Some fin)) =
  if decide (cp_slot (db_fin d) < cp_slot fin)
  then with_tab d (prune_live_chain (db_tab d) (cp_slot fin)) else d.
Proof.
  unfold finalization_advanced. destruct (N.ltb_spec (cp_slot (db_fin d)) (cp_slot fin)).
  - by rewrite decide_True.
  - rewrite decide_False by lia. done.
Qed.
