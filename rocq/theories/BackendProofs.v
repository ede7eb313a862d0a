(** The storage backends agree with each other and with their description (C73). *)
From Coq Require Import Ascii String.
From stdpp Require Import strings sorting.
From Verif Require Export BackendSpec.
Local Open Scope N_scope.

(** ** The order of keys *)
Lemma lexb_spec a b : lexb a b = true <-> lex_lt a b.
Proof.
  revert b. induction a as [|x a IH]; intros [|y b]; cbn [lexb lex_lt]; try done.
  rewrite orb_true_iff, andb_true_iff, N.ltb_lt, N.eqb_eq, IH. done.
Qed.
Lemma lex_irrefl a : ~ lex_lt a a.
Proof. induction a as [|x a IH]; cbn; [intros []|]. intros [?|[_ ?]]; [lia|done]. Qed.
Lemma lex_trans a b c : lex_lt a b -> lex_lt b c -> lex_lt a c.
Proof.
  revert b c. induction a as [|x a IH]; intros [|y b] [|z c]; cbn; try done.
  intros [?|[-> ?]] [?|[-> ?]]; [left; lia|by left|by left|right]. split; [done|]. by eapply IH.
Qed.
Lemma lex_total a b : lex_lt a b \/ a = b \/ lex_lt b a.
Proof.
  revert b. induction a as [|x a IH]; intros [|y b]; cbn; auto.
  destruct (N.lt_trichotomy x y) as [?|[->|?]]; auto. destruct (IH b) as [?|[->|?]]; auto.
Qed.
Lemma lexb_false a b : lexb a b = false <-> a = b \/ lex_lt b a.
Proof.
  rewrite <- not_true_iff_false, lexb_spec. split.
  - intros H. destruct (lex_total a b) as [?|[?|?]]; auto; done.
  - intros [->|H]; [apply lex_irrefl|]. intros H'. eapply lex_irrefl, lex_trans; eauto.
Qed.
Lemma prefix_not_below p k : p `prefix_of` k -> lexb k p = false.
Proof.
  intros [s ->]. apply lexb_false. destruct s as [|x s]; [left; by rewrite app_nil_r|right].
  induction p as [|y p IH]; cbn; [done|]. right. split; [done|exact IH].
Qed.
(** Keys between the prefix and a key with the prefix have the prefix. *)
Lemma prefix_between p k k' : lexb k p = false -> lex_lt k k' -> p `prefix_of` k' -> p `prefix_of` k.
Proof.
  revert k k'. induction p as [|y p IH]; intros k k' H1 H2 H3; [apply prefix_nil|].
  destruct k' as [|z k']; [by apply prefix_nil_not in H3|]. pose proof (prefix_cons_inv_1 _ _ _ _ H3) as ->.
  apply prefix_cons_inv_2 in H3. destruct k as [|x k]; [done|]. cbn [lexb lex_lt] in *.
  apply orb_false_iff in H1 as [H1 H1']. apply N.ltb_ge in H1.
  destruct H2 as [H2|[-> H2]]; [lia|]. rewrite N.eqb_refl in H1'. cbn [andb] in H1'. apply prefix_cons. by eapply IH.
Qed.

Global Instance key_le_trans : Transitive key_le.
Proof.
  intros x y z. unfold key_le. rewrite !lexb_false. intros [->|H1] [->|H2]; auto. right. by eapply lex_trans.
Qed.
Global Instance key_le_total : Total key_le.
Proof.
  intros x y. unfold key_le. rewrite !lexb_false. destruct (lex_total x.1 y.1) as [?|[?|?]]; auto.
Qed.

(** ** Listings *)
Lemma sorted_strict (l : list (bytes * bytes)) : StronglySorted key_le l -> NoDup (map fst l) ->
  StronglySorted (fun x y => lex_lt x.1 y.1) l.
Proof.
  induction 1 as [|x l Hs IH Hx]; intros Hn; constructor; [apply IH; by inversion Hn|].
  cbn in Hn. apply NoDup_cons in Hn as [Hn _]. rewrite Forall_forall in Hx |- *. intros y Hy. specialize (Hx y Hy).
  unfold key_le in Hx. apply lexb_false in Hx as [Heq|Hlt]; [|exact Hlt]. destruct Hn. rewrite <- Heq.
  apply elem_of_list_fmap. by exists y.
Qed.
Lemma nodup_filter_fst (f : bytes * bytes -> bool) l : NoDup (map fst l) -> NoDup (map fst (List.filter f l)).
Proof.
  induction l as [|x l IH]; cbn; [done|]. intros [Hx Hl]%NoDup_cons. destruct (f x); [|by apply IH]. cbn. constructor; [|by apply IH].
  intros Hin. apply Hx. apply elem_of_list_fmap in Hin as (y & -> & Hy). apply elem_of_list_fmap. exists y. split; [done|].
  apply elem_of_list_In in Hy. apply filter_In in Hy as [Hy _]. by apply elem_of_list_In.
Qed.
Lemma sort_listing (m : TableData) f : let l := merge_sort key_le (List.filter f (map_to_list m)) in
  StronglySorted (fun x y => lex_lt x.1 y.1) l /\ forall k v, (k, v) ∈ l <-> f (k, v) = true /\ m !! k = Some v.
Proof.
  cbn zeta. pose proof (merge_sort_Permutation key_le (List.filter f (map_to_list m))) as P. split.
  - apply sorted_strict; [apply (StronglySorted_merge_sort key_le)|].
    rewrite P. apply nodup_filter_fst. apply NoDup_fst_map_to_list.
  - intros k v. rewrite P. rewrite elem_of_list_In, filter_In, <- elem_of_list_In, elem_of_map_to_list. tauto.
Qed.
Lemma drop_take_listing p (l : list (bytes * bytes)) : StronglySorted (fun x y => lex_lt x.1 y.1) l ->
  let l' := take_while (fun x => starts_with p x.1) (drop_while (fun x => lexb x.1 p) l) in
  StronglySorted (fun x y => lex_lt x.1 y.1) l' /\ forall x, x ∈ l' <-> x ∈ l /\ p `prefix_of` x.1.
Proof.
  cbn zeta. induction 1 as [|x l Hs IH Hx]; cbn [drop_while take_while].
  { split; [constructor|]. intros x. rewrite elem_of_nil. tauto. }
  rewrite Forall_forall in Hx. destruct (lexb x.1 p) eqn:Hlt.
  - destruct IH as [IH1 IH2]. split; [done|]. intros y. rewrite IH2, elem_of_cons. split; [tauto|].
    intros [[->|Hy] Hp]; [|done]. apply prefix_not_below in Hp. congruence.
  - clear IH. cbn [take_while].
    assert (forall m : list (bytes * bytes), StronglySorted (fun x y => lex_lt x.1 y.1) m -> (forall y, y ∈ m -> lexb y.1 p = false) ->
      StronglySorted (fun x y => lex_lt x.1 y.1) (take_while (fun x => starts_with p x.1) m) /\
      forall y, y ∈ take_while (fun x => starts_with p x.1) m <-> y ∈ m /\ p `prefix_of` y.1) as Hgen.
    { clear. induction 1 as [|x m Hs IH Hx]; intros Hge; cbn [take_while].
      { split; [constructor|]. intros x. rewrite elem_of_nil. tauto. }
      rewrite Forall_forall in Hx. unfold starts_with at 1 3. destruct (bool_decide (p `prefix_of` x.1)) eqn:Hp.
      - apply bool_decide_eq_true in Hp. destruct IH as [I1 I2]; [intros y Hy; apply Hge; by right|]. split.
        + constructor; [done|]. apply Forall_forall. intros y Hy. apply I2 in Hy as [Hy _]. by apply Hx.
        + intros y. rewrite !elem_of_cons, I2. split; [|tauto]. intros [->|[? ?]]; auto.
      - apply bool_decide_eq_false in Hp. split; [constructor|]. intros y. rewrite elem_of_nil, elem_of_cons. split; [done|].
        intros [[->|Hy] Hpy]; [done|]. apply Hp. eapply prefix_between; [apply Hge; left|by apply Hx|done]. }
    apply (Hgen (x :: l)); [constructor; [done|by apply Forall_forall]|].
    intros y [->|Hy]%elem_of_cons; [done|]. apply lexb_false. right. specialize (Hx y Hy). apply lexb_false in Hlt as [<-|Hlt]; [done|].
    by eapply lex_trans.
Qed.
Lemma listing_unique val p l l' : listing val p l -> listing val p l' -> l = l'.
Proof.
  intros [S1 M1] [S2 M2].
  assert (forall l : list (bytes * bytes), StronglySorted (fun x y => lex_lt x.1 y.1) l -> NoDup l) as Hnd.
  { clear. induction 1 as [|x l Hs IH Hx]; constructor; [|done]. rewrite Forall_forall in Hx. intros Hin. by eapply lex_irrefl, Hx. }
  assert (l ≡ₚ l') as P.
  { apply NoDup_Permutation; [by apply Hnd|by apply Hnd|]. intros [k v]. by rewrite M1, M2. }
  clear -P S1 S2. revert l' P S2. induction S1 as [|x l Hs IH Hx]; intros l' P S2; [by apply Permutation_nil in P|].
  destruct S2 as [|y l' Hs' Hy]; [by apply Permutation_sym, Permutation_nil in P|].
  rewrite Forall_forall in Hx, Hy. assert (x = y) as ->.
  { assert (x ∈ y :: l') as H1 by (rewrite <- P; left). assert (y ∈ x :: l) as H2 by (rewrite P; left).
    apply elem_of_cons in H1 as [?|H1]; [done|]. apply elem_of_cons in H2 as [?|H2]; [done|].
    exfalso. eapply lex_irrefl, lex_trans; [by apply (Hx y)|by apply (Hy x)]. }
  f_equal. apply IH; [by eapply Permutation_cons_inv|done].
Qed.

(** ** Batches in memory *)
Definition touch (t : Table) (k : bytes) (o : option bytes) (x : Table * PendingOp) : option bytes :=
  if bool_decide (x.1 = t) then
    match x.2 with
    | PPut k' v => if bool_decide (k' = k) then Some v else o
    | PDelete k' => if bool_decide (k' = k) then None else o
    | PRange from to => if negb (lexb k from) && lexb k to then None else o
    end
  else o.
Definition ops_of (c : BatchCall) : list (Table * PendingOp) :=
  match c with
  | b_put t l => map (fun x => (t, PPut x.1 x.2)) l
  | b_delete t l => map (fun k => (t, PDelete k)) l
  | b_range t from to => [(t, PRange from to)]
  end.
Lemma apply_op_lookup op m t k : apply_op op m !! k = touch t k (m !! k) (t, op).
Proof.
  unfold touch. cbn [fst snd]. rewrite bool_decide_eq_true_2 by done. destruct op as [k' v|k'|from to]; cbn [apply_op].
  - case_bool_decide as H; [subst; by rewrite lookup_insert|by rewrite lookup_insert_ne].
  - case_bool_decide as H; [subst; by rewrite lookup_delete|by rewrite lookup_delete_ne].
  - apply option_eq. intros v. rewrite map_filter_lookup_Some. cbn [fst].
    destruct (lexb k from), (lexb k to); cbn [negb orb andb]; naive_solver.
Qed.
Lemma mem_apply_spec ops d : (forall t, is_Some (d t)) ->
  exists d', mem_apply d ops = Ok d' /\ (forall t, is_Some (d' t)) /\
    forall t k, (d' t ≫= fun m => m !! k) = fold_left (touch t k) ops (d t ≫= fun m => m !! k).
Proof.
  revert d. induction ops as [|[t op] ops IH]; intros d Hd; cbn [mem_apply]; [by exists d|].
  destruct (Hd t) as [m Hm]. rewrite Hm.
  destruct (IH (fun u => if bool_decide (u = t) then Some (apply_op op m) else d u)) as (d' & -> & H1 & H2).
  { intros u. case_bool_decide; [by eexists|apply Hd]. }
  exists d'. split_and!; [done|done|]. intros u k. rewrite H2. cbn [fold_left]. f_equal. case_bool_decide as Hu.
  - subst u. rewrite Hm. cbn. apply (apply_op_lookup op m t).
  - unfold touch. cbn [fst]. by rewrite bool_decide_eq_false_2 by done.
Qed.
Lemma fold_mem_call cs ops : fold_left mem_call cs ops = ops ++ concat (map ops_of cs).
Proof.
  revert ops. induction cs as [|c cs IH]; intros ops; cbn [fold_left map concat]; [by rewrite app_nil_r|].
  rewrite IH. unfold mem_call. by rewrite <- app_assoc.
Qed.
Lemma fold_ops_of t k c o : fold_left (touch t k) (ops_of c) o = after_call t k o c.
Proof.
  destruct c as [t' l|t' l|t' from to]; cbn [ops_of after_call].
  - revert o. induction l as [|x l IH]; intros o; cbn [map fold_left]; [done|]. rewrite IH. f_equal.
    unfold touch. cbn [fst snd]. repeat case_bool_decide; naive_solver.
  - revert o. induction l as [|x l IH]; intros o; cbn [map fold_left].
    + rewrite bool_decide_eq_false_2; [done|]. intros [_ H]. by apply elem_of_nil in H.
    + rewrite IH. unfold touch. cbn [fst snd]. repeat case_bool_decide; try done; exfalso; rewrite ?elem_of_cons in *; naive_solver.
  - cbn [fold_left]. unfold touch. cbn [fst snd]. case_bool_decide; cbn [andb]; done.
Qed.
Lemma fold_calls t k cs o : fold_left (touch t k) (concat (map ops_of cs)) o = fold_left (after_call t k) cs o.
Proof.
  revert o. induction cs as [|c cs IH]; intros o; cbn [map concat fold_left]; [done|]. by rewrite fold_left_app, fold_ops_of, IH.
Qed.
Lemma mem_commit_spec d cs : (forall t, is_Some (d t)) ->
  exists d', mem_commit d cs = Ok d' /\ (forall t, is_Some (d' t)) /\
    forall t k, (d' t ≫= fun m => m !! k) = fold_left (after_call t k) cs (d t ≫= fun m => m !! k).
Proof.
  intros Hd. destruct (mem_apply_spec (fold_left mem_call cs []) d Hd) as (d' & H1 & H2 & H3).
  exists d'. split_and!; [done|done|]. intros t k. rewrite H3, fold_mem_call. apply fold_calls.
Qed.
Lemma mem_run_spec d h : (forall t, is_Some (d t)) ->
  exists d', mem_run d h = Ok d' /\ (forall t, is_Some (d' t)) /\
    forall t k, (d' t ≫= fun m => m !! k) =
      fold_left (after_call t k) (concat (map fst (List.filter snd h))) (d t ≫= fun m => m !! k).
Proof.
  revert d. induction h as [|[cs [|]] h IH]; intros d Hd; cbn [mem_run List.filter snd map concat fst].
  - by exists d.
  - destruct (mem_commit_spec d cs Hd) as (d1 & -> & H1 & H2). cbn [rbind]. destruct (IH d1 H1) as (d' & -> & H3 & H4).
    exists d'. split_and!; [done|done|]. intros t k. by rewrite H4, H2, fold_left_app.
  - apply IH, Hd.
Qed.
Lemma mem_new_some t : mem_new t = Some ∅.
Proof. by destruct t. Qed.

Lemma memory_pf h : exists d, mem_run mem_new h = Ok d /\
  (forall t k, mem_get d t k = Ok (stored h t k)) /\
  (forall t p, exists l, mem_iter d t p = Ok l /\ listing (stored h t) p l).
Proof.
  destruct (mem_run_spec mem_new h) as (d & H1 & H2 & H3); [intros t; rewrite mem_new_some; by eexists|].
  exists d. split; [done|]. assert (forall t k m, d t = Some m -> m !! k = stored h t k) as Hst.
  { intros t k m Hm. specialize (H3 t k). rewrite Hm, mem_new_some in H3. cbn in H3. rewrite lookup_empty in H3. exact H3. }
  split.
  - intros t k. unfold mem_get. destruct (H2 t) as [m Hm]. rewrite Hm. f_equal. by apply Hst.
  - intros t p. unfold mem_iter. destruct (H2 t) as [m Hm]. rewrite Hm. eexists. split; [done|].
    destruct (sort_listing m (fun x => starts_with p x.1)) as [S M]. split; [exact S|].
    intros k v. rewrite M. cbn [fst]. unfold starts_with. by rewrite bool_decide_eq_true, (Hst t k m Hm).
Qed.

(** ** RocksDB *)
Global Instance table_name_inj : Inj eq eq table_name.
Proof. intros [] []; cbn; intros H; done. Qed.
Definition same_data (d : MemData) (r : RocksData) : Prop := forall t, d t = r !! table_name t.
Lemma rk_new_same : same_data mem_new rk_new.
Proof. intros t. rewrite mem_new_some. by destruct t. Qed.
Definition named (x : Table * PendingOp) : string * PendingOp := (table_name x.1, x.2).
Lemma rk_calls_spec r b cs : (forall t, is_Some (r !! table_name t)) ->
  rk_calls r b cs = Ok (b ++ map named (concat (map ops_of cs))).
Proof.
  intros Hr. revert b. induction cs as [|c cs IH]; intros b; cbn [rk_calls map concat]; [by rewrite app_nil_r|].
  unfold rk_call. destruct (Hr (match c with b_put t _ => t | b_delete t _ => t | b_range t _ _ => t end)) as [m ->]. cbn [rbind].
  rewrite IH, map_app, <- app_assoc. do 2 f_equal. destruct c; cbn [ops_of]; rewrite ?map_map; done.
Qed.
Lemma rk_apply_spec ops d r d' : same_data d r -> mem_apply d ops = Ok d' ->
  (forall t from to, (t, PRange from to) ∈ ops -> lexb to from = false) ->
  exists r', rk_apply r (map named ops) = Ok r' /\ same_data d' r'.
Proof.
  revert d r. induction ops as [|[t op] ops IH]; intros d r Hs H Hf; cbn [mem_apply map rk_apply named fst snd] in *.
  { injection H as <-. by exists r. }
  rewrite <- (Hs t). destruct (d t) as [m|] eqn:Hm; [|done].
  assert (match op with PRange from to => lexb to from | _ => false end = false) as ->.
  { destruct op; try done. eapply Hf. left. }
  eapply IH; [|exact H|].
  - intros u. case_bool_decide as Hu; [subst; by rewrite lookup_insert|].
    rewrite lookup_insert_ne; [apply Hs|]. intros Heq. by apply (inj table_name) in Heq.
  - intros. eapply Hf. by right.
Qed.
Lemma rk_commit_spec cs d r d' : (forall t, is_Some (d t)) -> same_data d r -> mem_commit d cs = Ok d' ->
  (forall c, c ∈ cs -> range_ordered c) -> exists r', rk_commit r cs = Ok r' /\ same_data d' r'.
Proof.
  intros Hd Hs H Hf. unfold rk_commit. rewrite rk_calls_spec by (intros t; rewrite <- Hs; apply Hd). cbn [rbind app].
  unfold mem_commit in H. rewrite fold_mem_call in H. cbn [app] in H. eapply rk_apply_spec; [done|done|].
  intros t from to Hin. apply elem_of_list_In, in_concat in Hin as (l & Hl & Hin). apply in_map_iff in Hl as (c & <- & Hc).
  apply elem_of_list_In in Hc. specialize (Hf c Hc).
  destruct c as [t' l|t' l|t' f' to']; cbn [ops_of range_ordered] in *.
  - apply in_map_iff in Hin as (? & ? & _). done.
  - apply in_map_iff in Hin as (? & ? & _). done.
  - destruct Hin as [Hin|[]]. by injection Hin as <- <- <-.
Qed.
Lemma rk_run_spec h d r d' : (forall t, is_Some (d t)) -> same_data d r -> mem_run d h = Ok d' ->
  ranges_ordered h -> exists r', rk_run r h = Ok r' /\ same_data d' r'.
Proof.
  revert d r. induction h as [|[cs [|]] h IH]; intros d r Hd Hs H Hf; cbn [mem_run rk_run] in *.
  - injection H as <-. by exists r.
  - destruct (mem_commit_spec d cs Hd) as (d1 & H1 & H2 & _). rewrite H1 in H. cbn [rbind] in H.
    destruct (rk_commit_spec cs d r d1 Hd Hs H1) as (r1 & -> & Hs1); [intros c Hc; eapply Hf; [left|done]|].
    cbn [rbind]. eapply IH; [exact H2|exact Hs1|done|]. intros cs' c Hin. eapply Hf. by right.
  - eapply IH; [exact Hd|exact Hs|done|]. intros cs' c Hin. eapply Hf. by right.
Qed.
Lemma rocks_pf h : ranges_ordered h -> exists r, rk_run rk_new h = Ok r /\
  (forall t k, rk_get r t k = Ok (stored h t k)) /\
  (forall t p, exists l, rk_iter r t p = Ok l /\ listing (stored h t) p l).
Proof.
  intros Hf. destruct (mem_run_spec mem_new h) as (d & H1 & H2 & _); [intros t; rewrite mem_new_some; by eexists|].
  destruct (rk_run_spec h mem_new rk_new d) as (r & Hr & Hs);
    [intros t; rewrite mem_new_some; by eexists|exact rk_new_same|done|done|].
  destruct (memory_pf h) as (d' & H1' & Hg & _). rewrite H1 in H1'. injection H1' as <-.
  exists r. split; [done|]. split.
  - intros t k. specialize (Hg t k). unfold rk_get, mem_get in *. rewrite <- Hs. destruct (H2 t) as [m Hm]. by rewrite Hm in *.
  - intros t p. unfold rk_iter. rewrite <- Hs. destruct (H2 t) as [m Hm]. rewrite Hm. eexists. split; [done|].
    destruct (sort_listing m (fun _ => true)) as [S M].
    assert (List.filter (fun _ => true) (map_to_list m) = map_to_list m) as Hall.
    { generalize (map_to_list m). intros q. induction q as [|x q IH]; cbn; [done|by rewrite IH]. }
    rewrite Hall in S, M. destruct (drop_take_listing p _ S) as [S' M']. split; [exact S'|].
    intros k v. rewrite M', M. cbn [fst]. specialize (Hg t k). unfold mem_get in Hg. rewrite Hm in Hg. injection Hg as <-. tauto.
Qed.
Lemma same_pf h : ranges_ordered h -> exists d r, mem_run mem_new h = Ok d /\ rk_run rk_new h = Ok r /\
  (forall t k, mem_get d t k = rk_get r t k) /\ (forall t p, mem_iter d t p = rk_iter r t p).
Proof.
  intros Hf. destruct (memory_pf h) as (d & H1 & G1 & L1). destruct (rocks_pf h Hf) as (r & H2 & G2 & L2).
  exists d, r. split_and!; try done.
  - intros t k. by rewrite G1, G2.
  - intros t p. destruct (L1 t p) as (l & -> & Hl). destruct (L2 t p) as (l' & -> & Hl'). f_equal. by eapply listing_unique.
Qed.

(** ** Views *)
Lemma mem_view_pf d es rs : mem_views d true es rs -> while_open es ->
  (forall cs, v_commit cs ∉ es) /\ rs = omap (fun e => match e with v_read t k => Some (mem_get d t k) | _ => None end) es.
Proof.
  intros H. remember true as o eqn:Ho. induction H as [d o|d es rs H IH|d t k es rs H IH|d es rs H IH|d cs d' es rs Hc H IH]; try done.
  - intros _. split; [intros cs Hin; by apply elem_of_nil in Hin|done].
  - intros [_ Hw]%Forall_cons. destruct (IH eq_refl Hw) as [I1 ->]. split; [|done].
    intros cs [?|Hin]%elem_of_cons; [done|]. by eapply I1.
  - intros [[_ Hw] _]%Forall_cons. done.
Qed.

Lemma rk_get_new t k : rk_get rk_new t k = Ok None.
Proof. unfold rk_get. rewrite <- rk_new_same, mem_new_some. by rewrite lookup_empty. Qed.
Lemma rk_view_pf : exists es t k a b, while_open es /\ es = [v_read t k; v_commit [b_put t [(k, [7])]]; v_read t k] /\
  rk_views rk_new false (v_open :: es ++ [v_close]) [Ok a; Ok b] /\ a <> b.
Proof.
  set (cs := [b_put Metadata [([1], [7])]]).
  destruct (rocks_pf [(cs, true)]) as (r & Hr & Hg & _).
  { intros cs' c Hin Hc. apply elem_of_list_singleton in Hin as [= ->]. by apply elem_of_list_singleton in Hc as ->. }
  cbn [rk_run] in Hr. destruct (rk_commit rk_new cs) as [r'| |] eqn:Hc; try done. injection Hr as ->.
  exists [v_read Metadata [1]; v_commit cs; v_read Metadata [1]], Metadata, [1], None, (stored [(cs, true)] Metadata [1]).
  split; [repeat constructor; done|]. split; [done|]. split; [|done]. constructor. cbn [app].
  rewrite <- (rk_get_new Metadata [1]), <- Hg. constructor. apply (rv_commit _ _ _ _ _ _ Hc). constructor. constructor. constructor.
Qed.
Lemma range_pf : exists h d, mem_run mem_new h = Ok d /\ rk_run rk_new h = Err tt.
Proof.
  exists [([b_range LiveChain [2] [1]], true)].
  destruct (memory_pf [([b_range LiveChain [2] [1]], true)]) as (d & Hd & _). exists d. split; [done|].
  cbn [rk_run]. unfold rk_commit. rewrite rk_calls_spec; [done|]. intros t. rewrite <- rk_new_same, mem_new_some. by eexists.
Qed.
