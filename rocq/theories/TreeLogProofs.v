(** Proofs about the logged tree (TreeLog.v). *)
From Verif Require Import Lib FCSpec FCProofs TreeLogSpec NodeThms3.
Local Open Scope N_scope.

Section Tree.
  Context (blocks : gmap H256 (N * H256)) (weights : gmap H256 N) (head : H256).
  Context (Hdec : slots_decrease blocks).
  Local Notation children := (TreeLog.children blocks weights).
  Local Notation slot := (slot_in blocks).

  Lemma has_parent_spec r s p : blocks !! r = Some (s, p) -> (has_parent blocks (s, p) = true <-> child_in blocks p r).
  Proof.
    intros Hr. unfold has_parent, child_in. cbn. rewrite andb_true_iff, negb_true_iff, N.eqb_neq, bool_decide_eq_true.
    split; [intros [H1 H2]; split_and!; eauto|tauto].
  Qed.
  Lemma children_spec p c : c ∈ children p <-> child_in blocks p c.
  Proof.
    unfold TreeLog.children. rewrite (merge_sort_Permutation _ _). rewrite elem_of_list_fmap. split.
    - intros ([r [s p']] & -> & H). apply elem_of_list_filter in H as ((H1 & H2) & H3). cbn in *. subst p'.
      apply elem_of_map_to_list in H3. by apply (has_parent_spec _ _ _ H3).
    - intros Hc. destruct Hc as (H1 & H2 & s & H3). exists (c, (s, p)). split; [done|].
      apply elem_of_list_filter. split; [|by apply elem_of_map_to_list]. cbn. split; [|done].
      apply (has_parent_spec _ _ _ H3). split_and!; eauto.
  Qed.
  Lemma children_nodup p : NoDup (children p).
  Proof.
    unfold TreeLog.children. rewrite (merge_sort_Permutation _ _).
    assert (forall l : list (H256 * (N * H256)), NoDup (map fst l) ->
      NoDup (map fst (filter (fun e : H256 * (N * H256) => has_parent blocks e.2 = true /\ e.2.2 = p) l))) as G.
    { induction l as [|x l IH]; intros Hn; [constructor|]. cbn in Hn. apply NoDup_cons in Hn as [Hx Hn].
      rewrite filter_cons. destruct (decide _); [|by apply IH]. cbn. constructor; [|by apply IH].
      intros Hi. apply Hx. apply elem_of_list_fmap in Hi as (y & -> & Hy). apply elem_of_list_filter in Hy as [_ Hy].
      apply elem_of_list_fmap. by exists y. }
    apply G. apply NoDup_fst_map_to_list.
  Qed.

  (** Ancestors, the block itself included. *)
  Inductive anc (a : H256) : H256 -> Prop :=
  | anc_refl : anc a a
  | anc_step p r : anc a p -> child_in blocks p r -> anc a r.
  Lemma child_slot p r : child_in blocks p r -> slot p < slot r.
  Proof.
    intros (_ & [[sp pp] Hp] & s & Hr). unfold slot_in. rewrite Hp, Hr. cbn. by eapply Hdec.
  Qed.
  Lemma anc_slot a r : anc a r -> a = r \/ slot a < slot r.
  Proof. induction 1 as [|p r _ IH Hc]; [by left|]. right. apply child_slot in Hc. destruct IH as [->|IH]; lia. Qed.
  Lemma anc_trans a b c : anc a b -> anc b c -> anc a c.
  Proof. intros H1 H2. induction H2; [done|]. by eapply anc_step. Qed.
  Lemma child_parent p q r : child_in blocks p r -> child_in blocks q r -> p = q.
  Proof. intros (_ & _ & s & H1) (_ & _ & s' & H2). congruence. Qed.
  Lemma anc_total a b r : anc a r -> anc b r -> anc a b \/ anc b a.
  Proof.
    intros H. revert b. induction H as [|p r Hp IH Hc]; intros b Hb; [by right|].
    destruct Hb as [|q r Hq Hc']; [left; by eapply anc_step|].
    rewrite (child_parent _ _ _ Hc' Hc) in Hq. by apply IH.
  Qed.
  Lemma anc_child_inv a r : anc a r -> a = r \/ exists c, child_in blocks a c /\ anc c r.
  Proof.
    induction 1 as [|p r Hp IH Hc]; [by left|]. right. destruct IH as [->|(c & Hc' & Ha)].
    - exists r. split; [done|constructor].
    - exists c. split; [done|]. by eapply anc_step.
  Qed.
  Lemma siblings p c1 c2 r : child_in blocks p c1 -> child_in blocks p c2 -> anc c1 r -> anc c2 r -> c1 = c2.
  Proof.
    assert (forall c1 c2, child_in blocks p c1 -> child_in blocks p c2 -> anc c1 c2 -> c1 = c2) as G.
    { intros x y Hx Hy Ha. destruct Ha as [|q y Hq Hc]; [done|]. rewrite (child_parent _ _ _ Hc Hy) in Hq.
      apply anc_slot in Hq. apply child_slot in Hx. destruct Hq as [->|Hq]; lia. }
    intros H1 H2 A1 A2. destruct (anc_total _ _ _ A1 A2) as [A|A]; [by apply G|symmetry; by apply G].
  Qed.

  (** ** Columns *)
  Local Notation column := (column blocks).
  Definition step_width (p r : H256) : N := 1 + if slot p + 1 <? slot r then 1 else 0.
  Lemma column_anc root r n : column root r n -> anc root r /\ 1 <= n.
  Proof.
    induction 1 as [|p r n _ [IH1 IH2] Hc]; [split; [constructor|lia]|]. split; [by eapply anc_step|lia].
  Qed.
  Lemma column_fun root r n m : column root r n -> column root r m -> n = m.
  Proof.
    intros H. revert m. induction H as [|p r n Hp IH Hc]; intros m Hm.
    - inversion Hm as [|p r k Hk Hc]; [done|]; subst. exfalso. apply column_anc in Hk as [Hk _]. apply anc_slot in Hk. apply child_slot in Hc.
      destruct Hk as [->|Hk]; lia.
    - inversion Hm as [Hs|q r' k Hk Hc']; subst.
      + exfalso. apply column_anc in Hp as [Hp _]. apply anc_slot in Hp. apply child_slot in Hc. destruct Hp as [->|Hp]; lia.
      + rewrite (child_parent _ _ _ Hc' Hc) in *. by rewrite (IH _ Hk).
  Qed.
  Lemma column_below root a r n m : column root a n -> anc a r -> column root r m -> n <= m.
  Proof.
    intros Ha H. revert m. induction H as [|p r Hp IH Hc]; intros m Hm.
    - by rewrite (column_fun _ _ _ _ Ha Hm).
    - inversion Hm as [Hs|q r' k Hk Hc']; subst.
      + exfalso. apply column_anc in Ha as [Ha _]. pose proof (anc_trans _ _ _ Ha Hp) as H1. apply anc_slot in H1.
        apply child_slot in Hc. destruct H1 as [->|H1]; lia.
      + rewrite (child_parent _ _ _ Hc' Hc) in *. specialize (IH _ Hk). lia.
  Qed.

  Lemma gap_spec p r : child_in blocks p r ->
    exists g d, render_gap (Some (slot p)) (slot r) = (g, d) /\ d + 1 = step_width p r /\ shown g = [] /\ PHead ∉ g.
  Proof.
    intros Hc. unfold render_gap, step_width. pose proof (child_slot _ _ Hc).
    destruct (N.leb_spec 1 (slot r - slot p - 1)).
    - eexists _, _. split; [reflexivity|]. assert ((slot p + 1 <? slot r) = true) as -> by lia.
      split; [lia|]. split; [done|]. rewrite elem_of_list_singleton. discriminate.
    - eexists _, _. split; [reflexivity|]. assert ((slot p + 1 <? slot r) = false) as -> by lia.
      split; [lia|]. split; [done|]. apply not_elem_of_nil.
  Qed.
  Lemma parent_slot_spec p r : child_in blocks p r -> parent_slot blocks r = Some (slot p).
  Proof. intros (_ & [[sp pp] Hp] & s & Hr). unfold parent_slot, slot_in. rewrite Hr. cbn. rewrite Hp. done. Qed.

  (** ** Pieces of the text *)
  Lemma shown_app l1 l2 : shown (l1 ++ l2) = shown l1 ++ shown l2.
  Proof. unfold shown. apply omap_app. Qed.
  Local Notation marked := (head_marks_ok head).
  Lemma marked_app l1 l2 : marked l1 -> marked l2 -> marked (l1 ++ l2).
  Proof.
    intros H1 H2 i Hi. apply lookup_app_Some in Hi as [Hi|[Hle Hi]].
    - destruct (H1 _ Hi) as (j & s & Hj & Hc). exists j, s. split; [by apply lookup_app_l_Some|].
      destruct Hc as [Hc|[Hc Hd]]; [by left|]. right. split; [done|]. by apply lookup_app_l_Some.
    - destruct (H2 _ Hi) as (j & s & Hj & Hc). exists (length l1 + j)%nat, s.
      split; [rewrite lookup_app_r by lia; by replace (length l1 + j - length l1)%nat with j by lia|].
      destruct Hc as [Hc|[Hc Hd]]; [left; lia|]. right. split; [lia|].
      rewrite lookup_app_r by lia. by replace (S (length l1 + j) - length l1)%nat with (S j) by lia.
  Qed.
  Lemma marked_none l : PHead ∉ l -> marked l.
  Proof. intros H i Hi. by apply elem_of_list_lookup_2 in Hi. Qed.
  Lemma marked_node s : marked [PNode head s; PHead].
  Proof. intros [|[|i]] Hi; cbn in Hi; [done| |done]. exists 0%nat, s. split; [done|by left]. Qed.
  Lemma marked_dots s : marked [PNode head s; PDots; PHead].
  Proof. intros [|[|[|i]]] Hi; cbn in Hi; [done|done| |done]. exists 0%nat, s. split; [done|by right]. Qed.
  Local Notation starred := (head_marked head).
  Lemma starred_l l1 l2 : starred l1 -> starred (l1 ++ l2).
  Proof. intros (j & s & H1 & H2). exists j, s. split; by apply lookup_app_l_Some. Qed.
  Lemma starred_r l1 l2 : starred l2 -> starred (l1 ++ l2).
  Proof.
    intros (j & s & H1 & H2). exists (length l1 + j)%nat, s.
    split; rewrite lookup_app_r by lia; [by replace (length l1 + j - length l1)%nat with j by lia|].
    by replace (S (length l1 + j) - length l1)%nat with (S j) by lia.
  Qed.
  Lemma starred_node s : starred [PNode head s; PHead].
  Proof. exists 0%nat, s. done. Qed.

  (** What a line starting at [c] (column of its parent: [d]) shows. *)
  Definition line_ok (root c : H256) (out : list Piece) : Prop :=
    (forall r s, (r, s) ∈ shown out -> anc c r /\ fst <$> blocks !! r = Some s) /\
    NoDup (map fst (shown out)) /\ marked out /\
    c ∈ map fst (shown out) /\
    (forall p n r, anc c p -> column root p n -> n < MAX_DISPLAY_DEPTH -> child_in blocks p r ->
      r ∈ map fst (shown out)) /\
    (forall n, anc c head -> column root head n -> n < MAX_DISPLAY_DEPTH -> starred out).

  Definition lines_ok (root : H256) (cs : list H256) (out : list Piece) : Prop :=
    (forall r s, (r, s) ∈ shown out -> (exists c, c ∈ cs /\ anc c r) /\ fst <$> blocks !! r = Some s) /\
    NoDup (map fst (shown out)) /\ marked out /\
    (forall c, c ∈ cs -> c ∈ map fst (shown out)) /\
    (forall c p n r, c ∈ cs -> anc c p -> column root p n -> n < MAX_DISPLAY_DEPTH -> child_in blocks p r ->
      r ∈ map fst (shown out)) /\
    (forall c n, c ∈ cs -> anc c head -> column root head n -> n < MAX_DISPLAY_DEPTH -> starred out).

  Lemma shown_fst r out : r ∈ map fst (shown out) <-> exists s, (r, s) ∈ shown out.
  Proof. rewrite elem_of_list_fmap. split; [intros ([x s] & -> & H); by exists s|intros [s H]; by exists (r, s)]. Qed.

  Lemma each_branch_ok root p line indent cs :
    NoDup cs -> (forall c, c ∈ cs -> child_in blocks p c) ->
    (forall c l, c ∈ cs -> exists out, line c l = Ok out /\ line_ok root c out) ->
    exists out, each_branch line indent cs = Ok out /\ lines_ok root cs out.
  Proof.
    induction cs as [|c cs IH]; intros Hn Hc Hl.
    { exists []. split; [done|]. unfold lines_ok. split_and!.
      - intros r s H. by apply not_elem_of_nil in H.
      - constructor.
      - apply marked_none. apply not_elem_of_nil.
      - intros c H. by apply not_elem_of_nil in H.
      - intros c q n r H. by apply not_elem_of_nil in H.
      - intros c n H. by apply not_elem_of_nil in H. }
    apply NoDup_cons in Hn as [Hnc Hn].
    destruct IH as (o2 & E2 & L1 & L2 & L3 & L4 & L5 & L6); [done|intros; apply Hc; by right|intros; apply Hl; by right|].
    cbn [each_branch]. destruct (Hl c (match cs with [] => true | _ => false end) ltac:(left)) as (o1 & E1 & K1 & K2 & K3 & K4 & K5 & K6).
    rewrite E1. cbn [rbind]. rewrite E2. cbn [rbind]. eexists. split; [reflexivity|].
    assert (forall x, shown (PBranch indent x :: o1 ++ o2) = shown o1 ++ shown o2) as Es.
    { intros x. cbn. apply shown_app. }
    unfold lines_ok. rewrite Es, map_app. split_and!.
    - intros r s Hr. apply elem_of_app in Hr as [Hr|Hr].
      + destruct (K1 _ _ Hr) as [H1 H2]. split; [|done]. exists c. split; [left|done].
      + destruct (L1 _ _ Hr) as [(c' & H0 & H1) H2]. split; [|done]. exists c'. split; [by right|done].
    - apply NoDup_app. split_and!; [done| |done]. intros r Hr1 Hr2.
      apply shown_fst in Hr1 as [s1 Hr1]. apply shown_fst in Hr2 as [s2 Hr2].
      destruct (K1 _ _ Hr1) as [A1 _]. destruct (L1 _ _ Hr2) as [(c' & Hc' & A2) _].
      assert (c = c') as ->; [|done].
      eapply (siblings p); [apply Hc; left|apply Hc; by right|exact A1|exact A2].
    - apply (marked_app [_]); [|by apply marked_app]. apply marked_none. rewrite elem_of_list_singleton. discriminate.
    - intros c' H. apply elem_of_cons in H as [->|H]; apply elem_of_app; [by left|right; by apply L4].
    - intros c' q n r H. intros. apply elem_of_app. apply elem_of_cons in H as [->|H]; [left; by eapply K5|right; by eapply L5].
    - intros c' n H Ha Hcol Hlt. apply (starred_r [_]). apply elem_of_cons in H as [->|H]; [apply starred_l; by eapply K6|apply starred_r; by eapply L6].
  Qed.

  Lemma child_not_root root r : anc root r -> forall q, child_in blocks r q -> ~ anc q root.
  Proof.
    intros Ha q Hc Hq. apply anc_slot in Ha. apply anc_slot in Hq. apply child_slot in Hc.
    destruct Ha as [->|Ha]; destruct Hq as [->|Hq]; lia.
  Qed.
  Lemma child_not_anc p q : child_in blocks p q -> ~ anc q p.
  Proof. intros Hc Hq. apply anc_slot in Hq. apply child_slot in Hc. destruct Hq as [->|Hq]; lia. Qed.

  Lemma column_next root p r n : column root p n -> child_in blocks p r -> column root r (n + step_width p r).
  Proof. intros H Hc. unfold step_width. pose proof (col_child _ _ _ _ _ H Hc) as G. by rewrite <- N.add_assoc in G. Qed.

  (** Composition of a node and the text below it. *)
  Lemma node_ok root c n (g star tail : list Piece) cs :
    column root c n -> n < MAX_DISPLAY_DEPTH -> shown g = [] -> PHead ∉ g ->
    star = (if c =? head then [PHead] else []) ->
    (forall x, x ∈ cs <-> child_in blocks c x) -> lines_ok root cs tail ->
    line_ok root c (g ++ [PNode c (slot c)] ++ star ++ tail).
  Proof.
    intros Hcol Hlt Hg Hgh Hst Hcs (L1 & L2 & L3 & L4 & L5 & L6).
    assert (exists e, blocks !! c = Some e) as [[sl pp] Hb].
    { destruct Hcol as [[e He]|p r k _ (_ & _ & s & Hr)]; eauto. }
    assert (shown (g ++ [PNode c (slot c)] ++ star ++ tail) = (c, slot c) :: shown tail) as Es.
    { rewrite !shown_app, Hg, Hst. by destruct (_ =? _). }
    unfold line_ok. rewrite Es. cbn [map fst]. split_and!.
    - intros r s Hr. apply elem_of_cons in Hr as [[= -> ->]|Hr].
      + split; [constructor|]. unfold slot_in. by rewrite Hb.
      + destruct (L1 _ _ Hr) as [(x & Hx & Ha) Hs]. split; [|done]. apply Hcs in Hx.
        eapply anc_trans; [|exact Ha]. eapply anc_step; [constructor|done].
    - constructor; [|done]. intros Hc. apply shown_fst in Hc as [s Hc]. destruct (L1 _ _ Hc) as [(x & Hx & Ha) _].
      apply Hcs in Hx. by apply (child_not_anc _ _ Hx).
    - apply marked_app; [by apply marked_none|]. rewrite app_assoc. apply marked_app; [|done].
      rewrite Hst. destruct (N.eqb_spec c head) as [->|]; [apply marked_node|].
      apply marked_none. rewrite app_nil_r, elem_of_list_singleton. discriminate.
    - left.
    - intros p k r Ha Hk Hkl Hc. right. destruct (anc_child_inv _ _ Ha) as [->|(x & Hx & Hax)].
      + apply L4. by apply Hcs.
      + eapply (L5 x); [by apply Hcs|exact Hax|exact Hk|done|exact Hc].
    - intros k Ha Hk Hkl. apply starred_r. rewrite app_assoc. destruct (anc_child_inv _ _ Ha) as [->|(x & Hx & Hax)].
      + apply starred_l. rewrite Hst, N.eqb_refl. apply starred_node.
      + apply starred_r. eapply (L6 x); [by apply Hcs|done|exact Hk|done].
  Qed.
  Lemma cut_ok root c n (g tail : list Piece) :
    column root c n -> MAX_DISPLAY_DEPTH <= n -> shown g = [] -> PHead ∉ g -> shown tail = [] -> PHead ∉ tail ->
    line_ok root c (g ++ [PNode c (slot c)] ++ tail).
  Proof.
    intros Hcol Hge Hg Hgh Ht Hth.
    assert (exists e, blocks !! c = Some e) as [[sl pp] Hb].
    { destruct Hcol as [[e He]|p r k _ (_ & _ & s & Hr)]; eauto. }
    assert (shown (g ++ [PNode c (slot c)] ++ tail) = [(c, slot c)]) as Es.
    { rewrite !shown_app, Hg, Ht. done. }
    assert (forall p k, anc c p -> column root p k -> k < MAX_DISPLAY_DEPTH -> False) as Hno.
    { intros p k Ha Hk Hlt. pose proof (column_below _ _ _ _ _ Hcol Ha Hk). lia. }
    unfold line_ok. rewrite Es. cbn [map fst]. split_and!.
    - intros r s Hr. apply elem_of_list_singleton in Hr as [= -> ->]. split; [constructor|]. unfold slot_in. by rewrite Hb.
    - apply NoDup_singleton.
    - apply marked_none. rewrite !elem_of_app, elem_of_list_singleton. intros [H|[H|H]]; [done|discriminate|done].
    - left.
    - intros p k r Ha Hk Hlt. by edestruct Hno.
    - intros k Ha Hk Hlt. by edestruct Hno.
  Qed.

  Lemma lines_nil root tail : shown tail = [] -> PHead ∉ tail -> lines_ok root [] tail.
  Proof.
    intros Ht Hh. unfold lines_ok. rewrite Ht. split_and!.
    - intros r s H. by apply not_elem_of_nil in H.
    - constructor.
    - by apply marked_none.
    - intros c H. by apply not_elem_of_nil in H.
    - intros c q n r H. by apply not_elem_of_nil in H.
    - intros c n H. by apply not_elem_of_nil in H.
  Qed.
  Lemma lines_one root c out : line_ok root c out -> lines_ok root [c] out.
  Proof.
    intros (K1 & K2 & K3 & K4 & K5 & K6). split_and!; try done.
    - intros r s H. destruct (K1 _ _ H). split; [|done]. exists c. split; [left|done].
    - intros c' H. by apply elem_of_list_singleton in H as ->.
    - intros c' q n r H. apply elem_of_list_singleton in H as ->. by apply K5.
    - intros c' n H. apply elem_of_list_singleton in H as ->. by apply K6.
  Qed.
  Lemma lines_pre root cs pre out : shown pre = [] -> PHead ∉ pre -> lines_ok root cs out -> lines_ok root cs (pre ++ out).
  Proof.
    intros Hp Hh (K1 & K2 & K3 & K4 & K5 & K6). unfold lines_ok. rewrite shown_app, Hp. cbn [app].
    split_and!; try done.
    - apply marked_app; [by apply marked_none|done].
    - intros. apply starred_r. by eapply K6.
  Qed.

  Local Notation render_line := (TreeLog.render_line blocks weights head).
  Lemma render_line_ok root fuel : forall c p indent d,
    column root p d -> child_in blocks p c -> MAX_DISPLAY_DEPTH <= d + N.of_nat fuel -> (1 <= fuel)%nat ->
    exists out, render_line fuel c (Some (slot p)) indent d = Ok out /\ line_ok root c out.
  Proof.
    induction fuel as [|f IH]; intros c p indent d Hcol Hc Hf H1; [lia|].
    pose proof Hc as (_ & _ & s & Hb). assert (slot c = s) as Hs by (unfold slot_in; by rewrite Hb).
    cbn [TreeLog.render_line]. rewrite Hb. destruct (gap_spec _ _ Hc) as (g & e & Eg & Ed & Hg & Hh). rewrite Hs in Eg. rewrite Eg.
    pose proof (column_next _ _ _ _ Hcol Hc) as Hcol'. replace (d + e + 1) with (d + step_width p c) by lia.
    set (n := d + step_width p c) in *.
    assert (d + 1 <= n) as Hn by (unfold n, step_width; lia).
    destruct (N.leb_spec MAX_DISPLAY_DEPTH n) as [Hge|Hlt].
    { eexists. split; [reflexivity|]. rewrite <- Hs, <- app_assoc. apply (cut_ok _ _ n); try done.
      rewrite !elem_of_cons, elem_of_nil. intros [|[|[]]]; discriminate. }
    destruct (children c) as [|c1 [|c2 cs]] eqn:Ech.
    - eexists. split; [reflexivity|]. rewrite <- Hs, <- app_assoc.
      apply (node_ok _ _ n _ _ _ []); try done; [|apply lines_nil; [done|]].
      + intros x. rewrite <- children_spec, Ech. done.
      + rewrite !elem_of_cons, elem_of_nil. intros [|[|[]]]; discriminate.
    - assert (child_in blocks c c1) as Hc1 by (apply children_spec; rewrite Ech; left).
      destruct (IH c1 c indent n) as (x & Ex & Hx); [done|done|lia|lia|]. rewrite <- Hs, Ex. cbn [rbind].
      eexists. split; [reflexivity|]. rewrite <- app_assoc.
      apply (node_ok _ _ n _ _ _ [c1]); try done; [|by apply lines_one].
      intros y. by rewrite <- children_spec, Ech.
    - rewrite <- Ech.
      destruct (each_branch_ok root c (fun c0 is_last => render_line f c0 (parent_slot blocks c0) (indent ++ [is_last]) n) indent (children c))
        as (x & Ex & Hx).
      + apply children_nodup.
      + intros y. by rewrite children_spec.
      + intros y l Hy. apply children_spec in Hy. rewrite (parent_slot_spec _ _ Hy). apply IH; [done|done|lia|lia].
      + rewrite Ex. cbn [rbind]. eexists. split; [reflexivity|]. rewrite <- Hs, <- app_assoc.
        apply (node_ok _ _ n _ _ _ (children c)); try done; [intros; by rewrite children_spec|].
        apply lines_pre; [done| |done]. rewrite !elem_of_cons, elem_of_nil. intros [|[|[]]]; discriminate.
  Qed.

  (** ** The trunk *)
  Local Notation render_trunk := (TreeLog.render_trunk blocks weights).
  Definition trunk_ok (root c : H256) (out : list Piece) (tip : H256) (m : N) : Prop :=
    column root tip m /\ PHead ∉ out /\ anc c tip /\
    (forall r s, (r, s) ∈ shown out -> anc c r /\ anc r tip /\ fst <$> blocks !! r = Some s) /\
    NoDup (map fst (shown out)) /\ c ∈ map fst (shown out) /\ tip ∈ map fst (shown out) /\
    (forall r, anc c r -> r ∈ map fst (shown out) \/ (exists x, child_in blocks tip x /\ anc x r)) /\
    exists pre, (out = pre ++ [PNode tip (slot tip)] /\ m < MAX_DISPLAY_DEPTH /\ forall x, children tip <> [x]) \/
                (out = pre ++ [PNode tip (slot tip); PDots] /\ MAX_DISPLAY_DEPTH <= m).
  Lemma column_in root c n : column root c n -> fst <$> blocks !! c = Some (slot c).
  Proof.
    intros Hcol. assert (exists e, blocks !! c = Some e) as [[sl pp] Hb].
    { destruct Hcol as [[e He]|p r k _ (_ & _ & s & Hr)]; eauto. }
    unfold slot_in. by rewrite Hb.
  Qed.
  Lemma render_trunk_ok root fuel : forall c prev d g e,
    column root c (d + e + 1) -> render_gap prev (slot c) = (g, e) -> shown g = [] -> PHead ∉ g ->
    MAX_DISPLAY_DEPTH <= d + N.of_nat fuel -> (1 <= fuel)%nat ->
    exists out tip m, render_trunk fuel c prev d = Ok (out, tip, m) /\ trunk_ok root c out tip m.
  Proof.
    induction fuel as [|f IH]; intros c prev d g e Hcol Eg Hg Hgh Hf H1; [lia|].
    pose proof (column_in _ _ _ Hcol) as Hin. cbn [TreeLog.render_trunk].
    destruct (blocks !! c) as [[s p]|] eqn:Hb; [|done]. cbn in Hin. injection Hin as Hs. rewrite Hs, Eg.
    assert (Hsh : shown (g ++ [PNode c (slot c)]) = [(c, slot c)]) by (rewrite shown_app, Hg; done).
    assert (Hnh : PHead ∉ g ++ [PNode c (slot c)]).
    { rewrite elem_of_app, elem_of_list_singleton. intros [|]; [done|discriminate]. }
    assert (Hcin : fst <$> blocks !! c = Some (slot c)) by (by rewrite Hb, <- Hs).
    assert (forall tl, shown tl = [] -> PHead ∉ tl ->
      (forall k, column root c k -> (MAX_DISPLAY_DEPTH <= k /\ tl = [PDots]) \/ (k < MAX_DISPLAY_DEPTH /\ tl = [] /\ forall x, children c <> [x])) ->
      trunk_ok root c ((g ++ [PNode c (slot c)]) ++ tl) c (d + e + 1)) as Hstop.
    { intros tl Htl Hth Hk. unfold trunk_ok. rewrite shown_app, Hsh, Htl. cbn [app map fst]. split_and!.
      - done.
      - rewrite elem_of_app. tauto.
      - constructor.
      - intros r x Hr. apply elem_of_list_singleton in Hr as [= -> ->]. split_and!; [constructor|constructor|done].
      - apply NoDup_singleton.
      - left.
      - left.
      - intros r Hr. apply anc_child_inv in Hr as [<-|Hr]; [left; left|by right].
      - exists g. destruct (Hk _ Hcol) as [[Hge ->]|(Hlt & -> & Hch)]; [right|left].
        + by rewrite <- app_assoc.
        + by rewrite app_nil_r. }
    destruct (N.leb_spec MAX_DISPLAY_DEPTH (d + e + 1)) as [Hge|Hlt].
    { eexists _, _, _. split; [reflexivity|]. apply Hstop; [done|rewrite elem_of_list_singleton; discriminate|].
      intros k Hk. rewrite (column_fun _ _ _ _ Hk Hcol). by left. }
    assert (Hstop' : (forall x, children c <> [x]) ->
      exists out tip m, Ok (E := unit) (g ++ [PNode c (slot c)], c, d + e + 1) = Ok (out, tip, m) /\ trunk_ok root c out tip m).
    { intros Hx. eexists _, _, _. split; [reflexivity|]. rewrite <- (app_nil_r (g ++ _)). apply Hstop; [done|apply not_elem_of_nil|].
      intros k Hk. rewrite (column_fun _ _ _ _ Hk Hcol). by right. }
    destruct (children c) as [|c1 [|c2 cs]] eqn:Ech; [by apply Hstop'| |by apply Hstop'].
    assert (child_in blocks c c1) as Hc1 by (apply children_spec; rewrite Ech; left).
    destruct (gap_spec _ _ Hc1) as (g1 & e1 & Eg1 & Ed1 & Hg1 & Hh1).
    destruct (IH c1 (Some (slot c)) (d + e + 1) g1 e1) as (out & tip & m & Er & T1 & T2 & T3 & T4 & T5 & T6 & T7 & T8 & T9); try done; [|lia|lia|].
    { replace (d + e + 1 + e1 + 1) with (d + e + 1 + step_width c c1) by lia. by apply column_next. }
    rewrite Er. cbn [rbind fst snd]. eexists _, _, _. split; [reflexivity|].
    unfold trunk_ok. rewrite shown_app, Hsh. cbn [app map fst]. split_and!.
    - done.
    - rewrite elem_of_app. tauto.
    - eapply anc_trans; [|exact T3]. eapply anc_step; [constructor|done].
    - intros r x Hr. apply elem_of_cons in Hr as [[= -> ->]|Hr].
      + split_and!; [constructor| |done]. eapply anc_trans; [|exact T3]. eapply anc_step; [constructor|done].
      + destruct (T4 _ _ Hr) as (A1 & A2 & A3). split_and!; try done.
        eapply anc_trans; [|exact A1]. eapply anc_step; [constructor|done].
    - constructor; [|done]. intros Hx. apply shown_fst in Hx as [x Hx]. destruct (T4 _ _ Hx) as (A1 & _).
      by apply (child_not_anc _ _ Hc1).
    - left.
    - by right.
    - intros r Hr. apply anc_child_inv in Hr as [<-|(x & Hx & Hr)]; [left; left|].
      apply children_spec in Hx. rewrite Ech in Hx. apply elem_of_list_singleton in Hx as ->.
      destruct (T8 _ Hr) as [H|H]; [left; by right|by right].
    - destruct T9 as [pre [(-> & Hm & Hx)|(-> & Hm)]].
      + exists ((g ++ [PNode c (slot c)]) ++ pre). left. split; [by rewrite <- !app_assoc|by split].
      + exists ((g ++ [PNode c (slot c)]) ++ pre). right. split; [by rewrite <- !app_assoc|done].
  Qed.

  (** ** The whole text *)
  Lemma anc_column root r : is_Some (blocks !! root) -> anc root r -> exists n, column root r n.
  Proof.
    intros Hr. induction 1 as [|p r _ [n IH] Hc]; [exists 1; by constructor|]. eexists. by eapply col_child.
  Qed.
  Lemma find_tree_root_ok it :
    blocks <> ∅ -> it ≡ₚ map_to_list blocks ->
    exists root, find_tree_root blocks it = Ok root /\ top_block blocks root /\
      forall r, is_Some (blocks !! r) -> slot root <= slot r.
  Proof.
    intros Hne Hit. unfold find_tree_root.
    assert (Hin : forall e, e ∈ it <-> blocks !! e.1 = Some e.2).
    { intros [r e]. by rewrite Hit, elem_of_map_to_list. }
    (* going up from any block ends in one without parent *)
    assert (Hup : forall k r e, (N.to_nat (slot r) <= k)%nat -> blocks !! r = Some e ->
      exists x, x ∈ filter (fun e => has_parent blocks e.2 = false) it /\ x.2.1 <= slot r).
    { induction k as [k IH] using lt_wf_ind. intros r [s p] Hk Hr.
      destruct (has_parent blocks (s, p)) eqn:Hp.
      - pose proof (proj1 (has_parent_spec _ _ _ Hr) Hp) as Hc. pose proof (child_slot _ _ Hc) as Hlt.
        destruct Hc as (_ & [ep Hep] & _). destruct (IH (N.to_nat (slot p)) ltac:(lia) p ep ltac:(lia) Hep) as (x & Hx & Hs).
        exists x. split; [done|lia].
      - exists (r, (s, p)). split; [apply elem_of_list_filter; split; [done|by apply Hin]|].
        unfold slot_in. rewrite Hr. cbn. lia. }
    assert (Hfold : forall l (m : H256 * (N * H256)), let y := fold_left (fun m x => if x.2.1 <? m.2.1 then x else m) l m in
      (y = m \/ y ∈ l) /\ y.2.1 <= m.2.1 /\ forall x, x ∈ l -> y.2.1 <= x.2.1).
    { induction l as [|x l IH]; intros m; cbn.
      - split_and!; [by left|lia|]. intros x H. by apply not_elem_of_nil in H.
      - destruct (IH (if x.2.1 <? m.2.1 then x else m)) as (A1 & A2 & A3).
        destruct (N.ltb_spec x.2.1 m.2.1); split_and!.
        + destruct A1 as [->|A1]; right; [left|by right].
        + lia.
        + intros z Hz. apply elem_of_cons in Hz as [->|Hz]; [done|by apply A3].
        + destruct A1 as [->|A1]; [by left|right; by right].
        + lia.
        + intros z Hz. apply elem_of_cons in Hz as [->|Hz]; [lia|by apply A3]. }
    destruct (map_choose _ Hne) as (r0 & e0 & Hr0).
    destruct (filter _ it) as [|e l] eqn:Ef.
    { destruct (Hup _ r0 e0 (le_n _) Hr0) as (x & Hx & _). by apply not_elem_of_nil in Hx. }
    eexists. split; [reflexivity|]. destruct (Hfold l e) as (A1 & A2 & A3).
    set (y := fold_left _ l e) in *.
    assert (y ∈ e :: l) as Hy. { destruct A1 as [->|A1]; [left|by right]. }
    rewrite <- Ef in Hy. apply elem_of_list_filter in Hy as [Hy1 Hy2]. apply Hin in Hy2.
    destruct y as [ry [sy py]]. cbn in *. split.
    - split; [by eexists|]. intros p Hc. pose proof Hc as (_ & _ & s & Hb). rewrite Hy2 in Hb. injection Hb as -> ->.
      apply (has_parent_spec _ _ _ Hy2) in Hc. congruence.
    - intros r [er Hr]. destruct (Hup _ r er (le_n _) Hr) as (x & Hx & Hs). unfold slot_in at 1. rewrite Hy2. cbn.
      apply elem_of_cons in Hx as [->|Hx]; [lia|]. specialize (A3 _ Hx). lia.
  Qed.

  Lemma format_ok it :
    blocks <> ∅ -> it ≡ₚ map_to_list blocks ->
    exists root out, format_fork_choice_tree blocks weights head it = Ok out /\
      top_block blocks root /\ (forall r, is_Some (blocks !! r) -> slot root <= slot r) /\ tree_ok blocks head root out /\
      (forall n, column root head n -> n < MAX_DISPLAY_DEPTH -> (forall c, ~ child_in blocks head c) -> head_marked head out).
  Proof.
    intros Hne Hit. destruct (find_tree_root_ok it Hne Hit) as (root & Er & Htop & Hmin).
    exists root. pose proof (proj1 Htop) as Hroot. pose proof (col_root blocks root Hroot) as Hcr.
    unfold format_fork_choice_tree. rewrite bool_decide_eq_false_2 by done. rewrite Er. cbn [rbind].
    destruct (render_trunk_ok root line_fuel root None 0 [] 0) as (out & tip & m & Et & T1 & T2 & T3 & T4 & T5 & T6 & T7 & T8 & T9);
      [done|done|done|apply not_elem_of_nil|vm_compute; discriminate|vm_compute; lia|].
    rewrite Et. cbn [rbind].
    assert (Hcol : forall r, anc root r -> exists n, column root r n) by (intros; by apply anc_column).
    destruct (N.ltb_spec 1 (lenN (children tip))) as [Hlen|Hlen].
    - destruct (each_branch_ok root tip
        (fun c is_last => TreeLog.render_line blocks weights head line_fuel c (parent_slot blocks c) [is_last] m) [] (children tip))
        as (x & Ex & Hx).
      + apply children_nodup.
      + intros y. by rewrite children_spec.
      + intros y l Hy. apply children_spec in Hy. rewrite (parent_slot_spec _ _ Hy). apply render_line_ok; [done|done| |vm_compute; lia].
        assert (N.of_nat line_fuel = MAX_DISPLAY_DEPTH) as -> by reflexivity. lia.
      + rewrite Ex. cbn [rbind]. eexists. split; [reflexivity|]. split; [done|]. split; [done|].
        apply (lines_pre _ _ [PBranches (lenN (children tip)); PEol]) in Hx;
          [|done|rewrite !elem_of_cons, elem_of_nil; intros [|[|[]]]; discriminate].
        destruct Hx as (L1 & L2 & L3 & L4 & L5 & L6).
        set (tl := [PBranches (lenN (children tip)); PEol] ++ x) in *.
        unfold tree_ok. rewrite shown_app, map_app. split_and!.
        * intros r s Hr. apply elem_of_app in Hr as [Hr|Hr].
          -- destruct (T4 _ _ Hr) as (A1 & _ & A3). split; [by apply Hcol|done].
          -- destruct (L1 _ _ Hr) as [(c & Hc & A1) A3]. split; [|done]. apply Hcol. apply children_spec in Hc.
             eapply anc_trans; [exact T3|]. eapply anc_trans; [|exact A1]. eapply anc_step; [constructor|done].
        * apply NoDup_app. split_and!; [done| |done]. intros r Hr1 Hr2.
          apply shown_fst in Hr1 as [s1 Hr1]. apply shown_fst in Hr2 as [s2 Hr2].
          destruct (T4 _ _ Hr1) as (_ & A1 & _). destruct (L1 _ _ Hr2) as [(c & Hc & A2) _].
          apply children_spec in Hc. apply (child_not_anc _ _ Hc). by eapply anc_trans.
        * apply marked_app; [by apply marked_none|done].
        * apply elem_of_app. by left.
        * intros p n r Hp Hn Hc. apply elem_of_app. pose proof (proj1 (column_anc _ _ _ Hp)) as Ha.
          pose proof (anc_step _ _ _ Ha Hc) as Har. destruct (T8 _ Har) as [H|(c & Hcc & Hac)]; [by left|right].
          destruct Hac as [|p' r Hac Hc'].
          -- apply L4. by apply children_spec.
          -- rewrite (child_parent _ _ _ Hc' Hc) in Hac. eapply (L5 c); [by apply children_spec|exact Hac|exact Hp|done|done].
        * intros n Hn Hlt Hleaf. apply starred_r. destruct (T8 head (proj1 (column_anc _ _ _ Hn))) as [H|(c & Hcc & Hac)].
          -- exfalso. apply shown_fst in H as [s H]. destruct (T4 _ _ H) as (_ & A & _).
             apply anc_child_inv in A as [<-|(c & Hc & _)]; [|by apply (Hleaf c)].
             destruct (children head) as [|c ?] eqn:E; [unfold lenN in Hlen; cbn in Hlen; lia|]. apply (Hleaf c). apply children_spec. rewrite E. left.
          -- eapply (L6 c); [by apply children_spec|done|exact Hn|done].
    - eexists. split; [reflexivity|]. split; [done|]. split; [done|].
      set (tl := if tip =? head then [PHead; PEol] else [PEol]).
      assert (shown tl = []) as Hs by (unfold tl; by destruct (_ =? _)).
      unfold tree_ok. rewrite shown_app, Hs, app_nil_r. split_and!.
      + intros r s Hr. destruct (T4 _ _ Hr) as (A1 & _ & A3). split; [by apply Hcol|done].
      + done.
      + unfold tl. destruct (N.eqb_spec tip head) as [->|]; cycle 1.
        { apply marked_none. rewrite elem_of_app, elem_of_list_singleton. intros [|]; [done|discriminate]. }
        assert (marked [PEol]) as He by (apply marked_none; rewrite elem_of_list_singleton; discriminate).
        destruct T9 as [pre [(-> & _)|(-> & _)]].
        * rewrite <- app_assoc. apply marked_app; [apply marked_none; intros H; apply T2; apply elem_of_app; by left|].
          cbn [app]. apply (marked_app [_; _]); [apply marked_node|done].
        * rewrite <- app_assoc. apply marked_app; [apply marked_none; intros H; apply T2; apply elem_of_app; by left|].
          cbn [app]. apply (marked_app [_; _; _]); [apply marked_dots|done].
      + done.
      + intros p n r Hp Hn Hc. pose proof (proj1 (column_anc _ _ _ Hp)) as Ha.
        pose proof (anc_step _ _ _ Ha Hc) as Har. destruct (T8 _ Har) as [H|(c & Hcc & Hac)]; [done|exfalso].
        pose proof (proj2 (children_spec _ _) Hcc) as Hc2.
        destruct (children tip) as [|c1 [|c2 cs]] eqn:E; [by apply not_elem_of_nil in Hc2| |cbn in Hlen; unfold lenN in Hlen; cbn in Hlen; lia].
        apply elem_of_list_singleton in Hc2 as ->. destruct T9 as [pre [(_ & _ & Hx)|(_ & Hm)]]; [by apply (Hx c1)|].
        assert (anc tip p) as Hap.
        { destruct Hac as [|p' r Hac Hc']; [rewrite (child_parent _ _ _ Hc Hcc); constructor|].
          rewrite (child_parent _ _ _ Hc' Hc) in Hac. eapply anc_trans; [|exact Hac]. eapply anc_step; [constructor|done]. }
        pose proof (column_below _ _ _ _ _ T1 Hap Hp). lia.
      + intros n Hn Hlt Hleaf. destruct (T8 head (proj1 (column_anc _ _ _ Hn))) as [H|(c & Hcc & Hac)].
        * apply shown_fst in H as [s H]. destruct (T4 _ _ H) as (_ & A & _).
          apply anc_child_inv in A as [<-|(c & Hc & _)]; [|by destruct (Hleaf c)].
          unfold tl. rewrite N.eqb_refl. destruct T9 as [pre [(-> & _)|(_ & Hm)]].
          -- rewrite <- app_assoc. apply starred_r. apply (starred_l [_; _]). apply starred_node.
          -- rewrite (column_fun _ _ _ _ T1 Hn) in Hm. lia.
        * exfalso. pose proof (proj2 (children_spec _ _) Hcc) as Hc2.
          destruct (children tip) as [|c1 [|c2 cs]] eqn:E; [by apply not_elem_of_nil in Hc2| |cbn in Hlen; unfold lenN in Hlen; cbn in Hlen; lia].
          apply elem_of_list_singleton in Hc2 as ->. destruct T9 as [pre [(_ & _ & Hx)|(_ & Hm)]]; [by apply (Hx c1)|].
          assert (anc tip head) as Hap by (eapply anc_trans; [|exact Hac]; eapply anc_step; [constructor|done]).
          pose proof (column_below _ _ _ _ _ T1 Hap Hn). lia.
  Qed.
  (** ** The order of the branches *)
  Local Notation sorted := (branches_sorted blocks weights).
  Local Instance shown_before_trans : Transitive (shown_before weights).
  Proof. intros x y z. unfold shown_before. lia. Qed.
  Local Instance shown_before_total : Total (shown_before weights).
  Proof. intros x y. unfold shown_before. lia. Qed.
  Lemma children_sorted p : StronglySorted (shown_before weights) (children p).
  Proof. unfold TreeLog.children. apply (StronglySorted_merge_sort _ _). Qed.
  Lemma sorted_app l1 l2 : sorted l1 -> sorted l2 ->
    (forall a b p, a ∈ map fst (shown l1) -> b ∈ map fst (shown l2) -> child_in blocks p a -> child_in blocks p b -> shown_before weights a b) ->
    sorted (l1 ++ l2).
  Proof.
    intros H1 H2 H12 i j a b p Hij Hi Hj Ha Hb. rewrite shown_app, map_app in Hi, Hj.
    apply lookup_app_Some in Hi as [Hi|[Hle Hi]]; apply lookup_app_Some in Hj as [Hj|[Hlej Hj]].
    - by eapply (H1 i j).
    - eapply H12; [by eapply elem_of_list_lookup_2|by eapply elem_of_list_lookup_2|done|done].
    - apply lookup_lt_Some in Hj. lia.
    - eapply (H2 (i - length (map fst (shown l1))) (j - length (map fst (shown l1))))%nat; [lia|done..].
  Qed.
  Lemma sorted_small l : (length (shown l) <= 1)%nat -> sorted l.
  Proof.
    intros Hl i j a b p Hij Hi Hj. apply lookup_lt_Some in Hi, Hj. rewrite map_length in Hi, Hj. lia.
  Qed.
  Lemma siblings_anc p a b : child_in blocks p a -> child_in blocks p b -> anc a b -> a = b.
  Proof. intros Ha Hb H. eapply siblings; [exact Ha|exact Hb|exact H|constructor]. Qed.
  Lemma each_branch_sorted root p line indent cs :
    NoDup cs -> StronglySorted (shown_before weights) cs -> (forall c, c ∈ cs -> child_in blocks p c) ->
    (forall c l, c ∈ cs -> exists out, line c l = Ok out /\ line_ok root c out /\ sorted out) ->
    exists out, each_branch line indent cs = Ok out /\ lines_ok root cs out /\ sorted out.
  Proof.
    intros Hn Hs Hc Hl. destruct (each_branch_ok root p line indent cs Hn Hc) as (out & Ho & Hok).
    { intros c l Hin. destruct (Hl c l Hin) as (o & ? & ? & _). by exists o. }
    exists out. split; [done|]. split; [done|]. clear Hok. revert out Ho.
    induction cs as [|c cs IH]; intros out Ho; cbn [each_branch] in Ho.
    { injection Ho as <-. (apply sorted_small; cbn; lia). }
    apply NoDup_cons in Hn as [Hnc Hn]. inversion Hs as [|c' cs' Hs' Hf]; subst.
    destruct (Hl c (match cs with [] => true | _ => false end) ltac:(left)) as (o1 & E1 & K1 & S1).
    rewrite E1 in Ho. cbn [rbind] in Ho.
    destruct (each_branch_ok root p line indent cs) as (o2 & E2 & L1 & _); [done|intros; apply Hc; by right| |].
    { intros x l Hin. destruct (Hl x l ltac:(by right)) as (o & ? & ? & _). by exists o. }
    rewrite E2 in Ho. cbn [rbind] in Ho. injection Ho as <-.
    specialize (IH Hn Hs' ltac:(intros; apply Hc; by right) ltac:(intros; apply Hl; by right) _ E2).
    apply (sorted_app [PBranch indent _]); [(apply sorted_small; cbn; lia)| |intros a b q H; by apply not_elem_of_nil in H].
    apply sorted_app; [done|done|]. intros a b q Ha Hb Hqa Hqb.
    apply shown_fst in Ha as [sa Ha]. apply shown_fst in Hb as [sb Hb].
    destruct (proj1 K1 _ _ Ha) as [Aa _]. destruct (L1 _ _ Hb) as [(c' & Hc' & Ab) _].
    pose proof (Hc c ltac:(left)) as Hpc. pose proof (Hc c' ltac:(by right)) as Hpc'.
    destruct Aa as [|q' a Aq Hq'].
    - rewrite (child_parent _ _ _ Hqa Hpc) in Hqb. assert (c' = b) as -> by (exact (siblings_anc _ _ _ Hpc' Hqb Ab)).
      rewrite Forall_forall in Hf. by apply Hf.
    - rewrite (child_parent _ _ _ Hq' Hqa) in Aq. pose proof (anc_step _ _ _ Aq Hqb) as Acb.
      assert (c = c') as -> by (exact (siblings p _ _ _ Hpc Hpc' Acb Ab)). done.
  Qed.
  Lemma node_sorted c (g star tail : list Piece) cs root :
    shown g = [] -> shown star = [] -> (forall x, x ∈ cs -> child_in blocks c x) -> lines_ok root cs tail -> sorted tail ->
    sorted (g ++ [PNode c (slot c)] ++ star ++ tail).
  Proof.
    intros Hg Hst Hcs (L1 & _) Ht.
    apply sorted_app; [apply sorted_small; rewrite Hg; cbn; lia| |intros a b q H; rewrite Hg in H; by apply not_elem_of_nil in H].
    apply (sorted_app [_]); [(apply sorted_small; cbn; lia)| |].
    - apply sorted_app; [apply sorted_small; rewrite Hst; cbn; lia|done|intros a b q H; rewrite Hst in H; by apply not_elem_of_nil in H].
    - intros a b q Ha Hb Hqa Hqb. cbn in Ha. apply elem_of_list_singleton in Ha as ->. rewrite shown_app, Hst in Hb. cbn [app] in Hb.
      apply shown_fst in Hb as [s Hb]. destruct (L1 _ _ Hb) as [(x & Hx & Ab) _]. apply Hcs in Hx.
      assert (anc c b) as Acb by (eapply anc_trans; [eapply anc_step; [constructor|exact Hx]|exact Ab]).
      assert (c = b) as <- by (exact (siblings_anc _ _ _ Hqa Hqb Acb)). exfalso. by apply (child_not_anc _ _ Hx).
  Qed.
  Lemma render_line_sorted root fuel : forall c p indent d,
    column root p d -> child_in blocks p c -> MAX_DISPLAY_DEPTH <= d + N.of_nat fuel -> (1 <= fuel)%nat ->
    exists out, render_line fuel c (Some (slot p)) indent d = Ok out /\ line_ok root c out /\ sorted out.
  Proof.
    induction fuel as [|f IH]; intros c p indent d Hcol Hc Hf H1; [lia|].
    destruct (render_line_ok root (S f) c p indent d Hcol Hc Hf H1) as (out & Ho & Hok). exists out. split; [done|]. split; [done|]. clear Hok.
    pose proof Hc as (_ & _ & s & Hb). assert (slot c = s) as Hs by (unfold slot_in; by rewrite Hb).
    cbn [TreeLog.render_line] in Ho. rewrite Hb in Ho. destruct (gap_spec _ _ Hc) as (g & e & Eg & Ed & Hg & Hh). rewrite Hs in Eg. rewrite Eg in Ho.
    pose proof (column_next _ _ _ _ Hcol Hc) as Hcol'. replace (d + e + 1) with (d + step_width p c) in Ho by lia.
    set (n := d + step_width p c) in *.
    assert (d + 1 <= n) as Hn by (unfold n, step_width; lia).
    assert (forall x, shown (if c =? head then [PHead] else []) = x -> x = []) as Hstar by (intros x <-; by destruct (_ =? _)).
    specialize (Hstar _ eq_refl).
    destruct (N.leb_spec MAX_DISPLAY_DEPTH n) as [Hge|Hlt].
    { injection Ho as <-. apply sorted_small. rewrite !shown_app, Hg. cbn. lia. }
    destruct (children c) as [|c1 [|c2 cs]] eqn:Ech.
    - injection Ho as <-. apply sorted_small. rewrite !shown_app, Hg, Hstar. cbn. lia.
    - assert (child_in blocks c c1) as Hc1 by (apply children_spec; rewrite Ech; left).
      destruct (IH c1 c indent n) as (x & Ex & Hx & Sx); [done|done|lia|lia|]. rewrite <- Hs, Ex in Ho. cbn [rbind] in Ho. injection Ho as <-.
      rewrite <- app_assoc. apply (node_sorted _ _ _ _ [c1] root); [done|done| |by apply lines_one|done].
      intros y Hy. by apply elem_of_list_singleton in Hy as ->.
    - rewrite <- Ech in Ho.
      destruct (each_branch_sorted root c (fun c0 is_last => render_line f c0 (parent_slot blocks c0) (indent ++ [is_last]) n) indent (children c))
        as (x & Ex & Hx & Sx).
      + apply children_nodup.
      + apply children_sorted.
      + intros y. by rewrite children_spec.
      + intros y l Hy. apply children_spec in Hy. rewrite (parent_slot_spec _ _ Hy). apply IH; [done|done|lia|lia].
      + rewrite Ex in Ho. cbn [rbind] in Ho. injection Ho as <-. rewrite <- Hs, <- app_assoc.
        apply (node_sorted _ _ _ _ (children c) root); [done|done|intros y; by rewrite children_spec| |].
        * apply (lines_pre root (children c) [_; _]); [done| |done]. rewrite !elem_of_cons, elem_of_nil. intros [|[|[]]]; discriminate.
        * apply (sorted_app [_; _]); [(apply sorted_small; cbn; lia)|done|intros a b q H; by apply not_elem_of_nil in H].
  Qed.
  Lemma format_sorted it out :
    blocks <> ∅ -> it ≡ₚ map_to_list blocks -> format_fork_choice_tree blocks weights head it = Ok out -> sorted out.
  Proof.
    intros Hne Hit Ho. destruct (find_tree_root_ok it Hne Hit) as (root & Er & Htop & Hmin).
    pose proof (proj1 Htop) as Hroot. pose proof (col_root blocks root Hroot) as Hcr.
    unfold format_fork_choice_tree in Ho. rewrite bool_decide_eq_false_2 in Ho by done. rewrite Er in Ho. cbn [rbind] in Ho.
    destruct (render_trunk_ok root line_fuel root None 0 [] 0) as (ot & tip & m & Et & T1 & T2 & T3 & T4 & T5 & T6 & T7 & T8 & T9);
      [done|done|done|apply not_elem_of_nil|vm_compute; discriminate|vm_compute; lia|].
    rewrite Et in Ho. cbn [rbind] in Ho.
    assert (sorted ot) as Sot.
    { intros i j a b q Hij Hi Hj Hqa Hqb. exfalso.
      pose proof (elem_of_list_lookup_2 _ _ _ Hi) as Ha. pose proof (elem_of_list_lookup_2 _ _ _ Hj) as Hb.
      apply shown_fst in Ha as [sa Ha]. apply shown_fst in Hb as [sb Hb].
      destruct (T4 _ _ Ha) as (_ & A & _). destruct (T4 _ _ Hb) as (_ & B & _).
      assert (a = b) as <- by (exact (siblings q _ _ _ Hqa Hqb A B)). pose proof (NoDup_lookup _ _ _ _ T5 Hi Hj). lia. }
    destruct (N.ltb_spec 1 (lenN (children tip))) as [Hlen|Hlen].
    - destruct (each_branch_sorted root tip
        (fun c is_last => TreeLog.render_line blocks weights head line_fuel c (parent_slot blocks c) [is_last] m) [] (children tip))
        as (x & Ex & Hx & Sx).
      + apply children_nodup.
      + apply children_sorted.
      + intros y. by rewrite children_spec.
      + intros y l Hy. apply children_spec in Hy. rewrite (parent_slot_spec _ _ Hy). apply render_line_sorted; [done|done| |vm_compute; lia].
        assert (N.of_nat line_fuel = MAX_DISPLAY_DEPTH) as -> by reflexivity. lia.
      + rewrite Ex in Ho. cbn [rbind] in Ho. injection Ho as <-.
        apply sorted_app; [done| |].
        * apply (sorted_app [_; _]); [(apply sorted_small; cbn; lia)|done|intros a b q H; by apply not_elem_of_nil in H].
        * intros a b q Ha Hb Hqa Hqb. exfalso. change (map fst (shown ([PBranches (lenN (children tip)); PEol] ++ x))) with (map fst (shown x)) in Hb.
          apply shown_fst in Ha as [sa Ha]. apply shown_fst in Hb as [sb Hb].
          destruct (T4 _ _ Ha) as (_ & A & _). destruct (proj1 Hx _ _ Hb) as [(y & Hy & B) _]. apply children_spec in Hy.
          assert (anc a b) as Aab by (eapply anc_trans; [exact A|]; eapply anc_trans; [eapply anc_step; [constructor|exact Hy]|exact B]).
          assert (a = b) as <- by (exact (siblings_anc _ _ _ Hqa Hqb Aab)). apply (child_not_anc _ _ Hy). by eapply anc_trans.
    - injection Ho as <-. apply sorted_app; [done|apply sorted_small; destruct (_ =? _); cbn; lia|].
      intros a b q _ Hb. exfalso. destruct (_ =? _); by apply not_elem_of_nil in Hb.
  Qed.
End Tree.

Section Node.
  Context (E : Env) (gt : N) (vals : list Validator).
  Context (Hgood : good_hash (e_header E)) (Hvals : lenN vals <= VALIDATOR_REGISTRY_LIMIT).
  Lemma tree_pf n votes h w it :
    reachable E gt vals n ->
    compute_lmd_ghost_head (cp_root (db_just (nd_db n))) (map_to_list (live_chain (tab n))) votes 0 = Some (h, w) ->
    it ≡ₚ map_to_list (live_chain (tab n)) ->
    exists root out, format_fork_choice_tree (live_chain (tab n)) w h it = Ok out /\
      top_block (live_chain (tab n)) root /\
      (forall r, is_Some (live_chain (tab n) !! r) -> slot_in (live_chain (tab n)) root <= slot_in (live_chain (tab n)) r) /\
      tree_ok (live_chain (tab n)) h root out /\
      branches_sorted (live_chain (tab n)) w out /\
      forall k, column (live_chain (tab n)) root h k -> k < MAX_DISPLAY_DEPTH -> head_marked h out.
  Proof.
    intros Hr Hg Hit. destruct (reachable_inv E gt vals Hgood Hvals _ Hr) as (A & As & ws & [Hi _] & _).
    pose proof (live_decreasing E gt vals Hgood Hvals _ _ _ _ Hi) as Hdec.
    destruct (live_just E gt vals Hvals _ _ _ _ Hi) as [p Hp].
    destruct (format_ok (live_chain (tab n)) w h Hdec it) as (root & out & H1 & H2 & H3 & H4 & H5); [|done|].
    { intros He. unfold tab in He. rewrite He, lookup_empty in Hp. done. }
    exists root, out. split_and!; try done.
    { eapply format_sorted; [exact Hdec| |exact Hit|exact H1]. intros He. unfold tab in He. rewrite He, lookup_empty in Hp. done. }
    intros k Hk Hlt. eapply H5; [done|done|].
    destruct (ghost_any E gt vals Hgood Hvals _ _ _ _ votes 0 Hi) as (h' & w' & G1 & _ & _ & G2).
    unfold tab in *. rewrite Hg in G1. injection G1 as <- <-. intros c (_ & _ & s & Hc).
    apply (greedy_leaf_end _ _ _ _ _ G2 c). split; [by exists s|by left].
  Qed.
End Node.
