From Coq Require Import Ascii String.
From stdpp Require Import sorting.
From Verif Require Import IdsSpec ServeThms.
Local Open Scope N_scope.

Notation L s := (list_ascii_of_string s).
Lemma Lapp s t : L (s ++ t) = (L s ++ L t)%list.
Proof. induction s as [|c s IH]; [done|]. change (String c s ++ t)%string with (String c (s ++ t)). cbn. by rewrite IH. Qed.
Lemma Linj s t : L s = L t -> s = t.
Proof. intros H. apply (f_equal string_of_list_ascii) in H. by rewrite !string_of_list_ascii_of_string in H. Qed.
Lemma span {A} (P : A -> Prop) s1 : forall s2 c1 c2 r1 r2, Forall P s1 -> Forall P s2 -> ~ P c1 -> ~ P c2 ->
  (s1 ++ c1 :: r1)%list = (s2 ++ c2 :: r2)%list -> s1 = s2 /\ c1 = c2 /\ r1 = r2.
Proof.
  induction s1 as [|x s1 IH]; intros s2 c1 c2 r1 r2 H1 H2 N1 N2 E.
  - destruct s2 as [|y s2]; [by injection E as -> ->|]. injection E as -> _. apply Forall_cons in H2 as [H2 _]. done.
  - apply Forall_cons in H1 as [Hx H1]. destruct s2 as [|y s2]; [injection E as -> _; done|]. injection E as -> E. apply Forall_cons in H2 as [_ H2].
    destruct (IH _ _ _ _ _ H1 H2 N1 N2 E) as (-> & -> & ->). done.
Qed.
Definition digit (c : ascii) : Prop := c ∈ L "0123456789".
Lemma char_digit x : digit (pretty_N_char x).
Proof. unfold digit. destruct x as [|[[[p|p|]|[p|p|]|]|[[p|p|]|[p|p|]|]|]]; apply (bool_decide_unpack _); destruct p || idtac; vm_compute; exact I. Qed.
Lemma go_digits x : forall s, Forall digit (L s) -> Forall digit (L (pretty_N_go x s)).
Proof.
  induction (N.lt_wf_0 x) as [x _ IH]. intros s Hs. destruct (decide (x = 0)) as [->|Hx]; [by rewrite pretty_N_go_0|].
  rewrite pretty_N_go_step by lia. apply IH; [apply N.div_lt; lia|]. cbn. constructor; [apply char_digit|done].
Qed.
Lemma dec_digits x : Forall digit (L (dec x)).
Proof. unfold dec, pretty, pretty_N. destruct (decide (x = 0)); [repeat constructor; by left|]. apply go_digits. constructor. Qed.
Lemma dec_inj x y : L (dec x) = L (dec y) -> x = y.
Proof. intros H. apply Linj in H. unfold dec in H. by apply (inj (pretty : N -> string)) in H. Qed.
Lemma dec_cons x : exists c l, L (dec x) = c :: l /\ digit c.
Proof.
  pose proof (dec_digits x) as H. destruct (L (dec x)) as [|c l] eqn:E; [|apply Forall_cons in H as [H _]; by exists c, l].
  exfalso. destruct (decide (x = 0)) as [->|Hx]; [discriminate E|]. unfold dec, pretty, pretty_N in E. rewrite decide_False in E by done.
  assert (forall x s, s <> EmptyString -> pretty_N_go x s <> EmptyString) as G.
  { clear. intros x. induction (N.lt_wf_0 x) as [x _ IH]. intros s Hs. destruct (decide (x = 0)) as [->|Hx]; [by rewrite pretty_N_go_0|].
    rewrite pretty_N_go_step by lia. apply IH; [apply N.div_lt; lia|done]. }
  rewrite pretty_N_go_step in E by lia. apply (G (x / 10) (String (pretty_N_char (x mod 10)) "")); [done|]. by apply Linj.
Qed.
Lemma nd c : bool_decide (digit c) = false -> ~ digit c.
Proof. intros H. by apply bool_decide_eq_false in H. Qed.
(** A number followed by something that is not a digit. *)
Lemma num_inj x y c1 c2 r1 r2 : ~ digit c1 -> ~ digit c2 -> (L (dec x) ++ c1 :: r1)%list = (L (dec y) ++ c2 :: r2)%list -> x = y /\ c1 = c2 /\ r1 = r2.
Proof. intros H1 H2 E. apply (span digit) in E as (E & -> & ->); try apply dec_digits; try done. split; [by apply dec_inj|done]. Qed.
Lemma numbers_inj : forall l l' r r', (L (json_numbers l) ++ r)%list = (L (json_numbers l') ++ r')%list -> l = l' /\ r = r'.
Proof.
  assert (~ digit "]"%char) as N1 by (apply nd; vm_compute; reflexivity). assert (~ digit ","%char) as N2 by (apply nd; vm_compute; reflexivity).
  assert (forall x l, exists c, (c = "]"%char /\ l = [] \/ c = ","%char /\ l <> []) /\ L (json_numbers (x :: l)) = (L (dec x) ++ c :: (if decide (l = []) then [] else L (json_numbers l)))%list) as Hs.
  { intros x [|y k].
    - exists "]"%char. split; [by left|]. rewrite decide_True by done. cbn [json_numbers]. by rewrite Lapp.
    - exists ","%char. split; [by right|]. rewrite decide_False by done. change (json_numbers (x :: y :: k)) with (dec x ++ "," ++ json_numbers (y :: k))%string. by rewrite !Lapp. }
  assert (forall x l r r', (L (json_numbers []) ++ r)%list <> (L (json_numbers (x :: l)) ++ r')%list) as Hne.
  { intros x l r r' E. destruct (Hs x l) as (c & _ & Hx). rewrite Hx in E. destruct (dec_cons x) as (d & k & Hd & Hdig). rewrite Hd in E. cbn in E. injection E as <- _. done. }
  intros l. induction l as [|x l IH]; intros l' r r' E.
  - destruct l' as [|y l']; [cbn in E; injection E as ->; done|]. by apply Hne in E.
  - destruct l' as [|y l']; [symmetry in E; by apply Hne in E|].
    destruct (Hs x l) as (c1 & Hc1 & H1). destruct (Hs y l') as (c2 & Hc2 & H2). rewrite H1, H2, <- !app_assoc in E. cbn [app] in E.
    apply num_inj in E as (-> & -> & E); [|destruct Hc1 as [[-> _]|[-> _]]; done|destruct Hc2 as [[-> _]|[-> _]]; done].
    destruct Hc1 as [[-> ->]|[-> Hl]], Hc2 as [[Hc2 Hl']|[Hc2 Hl']]; try discriminate Hc2.
    + subst l'. rewrite decide_True in E by done. done.
    + rewrite !decide_False in E by done. apply IH in E as [-> ->]. done.
Qed.
Lemma app_inj {A} (p r r' : list A) : (p ++ r)%list = (p ++ r')%list -> r = r'.
Proof. apply app_inv_head. Qed.
Lemma checkpoint_inj c c' r r' : plain (mc_root c) -> plain (mc_root c') ->
  (L (json_checkpoint c) ++ r)%list = (L (json_checkpoint c') ++ r')%list -> c = c' /\ r = r'.
Proof.
  destruct c as [x n], c' as [x' n']. unfold json_checkpoint, plain. cbn [mc_root mc_slot]. intros Hx Hx' E. rewrite !Lapp, <- !app_assoc in E. apply app_inj in E.
  cbn [list_ascii_of_string app] in E. apply (span (fun c => c <> """"%char)) in E as (E1 & _ & E); try done; try tauto.
  apply Linj in E1 as ->. repeat (injection E as E). apply num_inj in E as (-> & _ & ->); try (apply nd; vm_compute; reflexivity). done.
Qed.
Lemma num_lit c p x y r r' : ~ digit c -> (L (dec x) ++ L (String c p) ++ r)%list = (L (dec y) ++ L (String c p) ++ r')%list -> x = y /\ r = r'.
Proof. intros Hc E. cbn [list_ascii_of_string app] in E. apply num_inj in E as (-> & _ & E); try done. by apply app_inj in E. Qed.
Lemma data_inj d d' r r' : plain_data d -> plain_data d' -> (L (json_data d) ++ r)%list = (L (json_data d') ++ r')%list -> d = d' /\ r = r'.
Proof.
  destruct d as [s h t o], d' as [s' h' t' o']. unfold plain_data, json_data. cbn [md_slot md_head md_target md_source]. intros (H1 & H2 & H3) (H1' & H2' & H3') E.
  rewrite !Lapp, <- !app_assoc in E. apply app_inj in E. apply num_lit in E as (-> & E); [|apply nd; vm_compute; reflexivity].
  apply checkpoint_inj in E as (-> & E); try done. apply app_inj in E.
  apply checkpoint_inj in E as (-> & E); try done. apply app_inj in E.
  apply checkpoint_inj in E as (-> & E); try done. by apply app_inj in E as ->.
Qed.
Lemma sort_iff l l' : merge_sort N.le l = merge_sort N.le l' <-> Permutation l l'.
Proof.
  split.
  - intros E. rewrite <- (merge_sort_Permutation N.le l), E. apply merge_sort_Permutation.
  - intros H. apply (Sorted_unique N.le); [apply Sorted_merge_sort; intros x y; lia|apply Sorted_merge_sort; intros x y; lia|].
    rewrite !merge_sort_Permutation. done.
Qed.
Lemma canonical_pf d l d' l' : plain_data d -> plain_data d' -> canonical_json d l = canonical_json d' l' <-> d = d' /\ Permutation l l'.
Proof.
  intros H H'. split.
  - intros E. apply (f_equal list_ascii_of_string) in E. unfold canonical_json in E. rewrite !Lapp in E. apply app_inj in E. apply data_inj in E as (-> & E); [|done|done].
    split; [done|]. apply app_inj in E. apply numbers_inj in E as [E _]. by apply sort_iff.
  - intros [-> E]. unfold canonical_json. apply sort_iff in E. by rewrite E.
Qed.

Lemma mod_inj m p q a b : m <> 0 -> (p * q) mod m = 1 mod m -> a < m -> b < m -> (a * p) mod m = (b * p) mod m -> a = b.
Proof.
  intros Hm Hpq Ha Hb E. rewrite <- (N.mod_small a m Ha), <- (N.mod_small b m Hb).
  assert (forall x, x mod m = ((x * p) mod m * q) mod m) as G.
  { intros x. rewrite N.mul_mod_idemp_l by done. rewrite <- N.mul_assoc. rewrite <- (N.mul_mod_idemp_r x (p * q)) by done. rewrite Hpq.
    rewrite N.mul_mod_idemp_r by done. by rewrite N.mul_1_r. }
  rewrite (G a), (G b), E. done.
Qed.
Lemma lxor_bound h b : h < 2 ^ 64 -> b < 256 -> N.lxor h b < 2 ^ 64.
Proof.
  intros Hh Hb. destruct (N.eq_dec (N.lxor h b) 0) as [->|Hne]; [vm_compute; reflexivity|]. apply N.log2_lt_pow2; [lia|].
  eapply N.le_lt_trans; [apply N.log2_lxor|]. apply N.max_lub_lt.
  - destruct (N.eq_dec h 0) as [->|H0]; [vm_compute; reflexivity|]. apply N.log2_lt_pow2; [lia|done].
  - destruct (N.eq_dec b 0) as [->|H0]; [vm_compute; reflexivity|]. apply N.log2_lt_pow2; [lia|]. eapply N.lt_trans; [exact Hb|vm_compute; reflexivity].
Qed.
Lemma step_inj h b h' b' : h < 2 ^ 64 -> b < 256 -> h' < 2 ^ 64 -> b' < 256 -> fnv_step h b = fnv_step h' b' -> N.lxor h b = N.lxor h' b'.
Proof.
  intros. eapply (mod_inj (2 ^ 64) FNV_PRIME 14886173955864302971); [vm_compute; discriminate|vm_compute; reflexivity| | |done]; by apply lxor_bound.
Qed.
Lemma step_bound h b : fnv_step h b < 2 ^ 64.
Proof. apply N.mod_lt. vm_compute. discriminate. Qed.
Lemma xor_l h x y : N.lxor h x = N.lxor h y -> x = y.
Proof. intros E. apply (f_equal (N.lxor h)) in E. by rewrite <- !N.lxor_assoc, !N.lxor_nilpotent, !N.lxor_0_l in E. Qed.
Lemma xor_r h x y : N.lxor x h = N.lxor y h -> x = y.
Proof. intros E. rewrite (N.lxor_comm x), (N.lxor_comm y) in E. by apply xor_l in E. Qed.
Lemma fold_bound l : forall h, h < 2 ^ 64 -> fold_left fnv_step l h < 2 ^ 64.
Proof. induction l as [|b l IH]; intros h Hh; [done|]. cbn. apply IH, step_bound. Qed.
Lemma fold_inj l : forall h h', Forall (fun b => b < 256) l -> h < 2 ^ 64 -> h' < 2 ^ 64 -> fold_left fnv_step l h = fold_left fnv_step l h' -> h = h'.
Proof.
  induction l as [|b l IH]; intros h h' Hf Hh Hh' E; [done|]. apply Forall_cons in Hf as [Hb Hf]. cbn in E. apply IH in E; [|done|apply step_bound|apply step_bound].
  apply step_inj in E; [|done..]. by apply xor_r in E.
Qed.
Lemma fnv_one a x y b : Forall (fun b => b < 256) b -> x < 256 -> y < 256 -> fnv1a_64 (a ++ x :: b) = fnv1a_64 (a ++ y :: b) -> x = y.
Proof.
  intros Hf Hx Hy E. unfold fnv1a_64 in E. rewrite !fold_left_app in E. cbn [fold_left] in E.
  assert (fold_left fnv_step a FNV_OFFSET_BASIS < 2 ^ 64) as Hh by (apply fold_bound; vm_compute; reflexivity).
  apply fold_inj in E; [|done|apply step_bound|apply step_bound]. apply step_inj in E; [|done..]. by apply xor_l in E.
Qed.
Lemma hex16_inj x y : x < 2 ^ 64 -> y < 2 ^ 64 -> hex_digits 16 x EmptyString = hex_digits 16 y EmptyString -> x = y.
Proof.
  intros Hx Hy E. apply (f_equal (read_digits hex_val 16 0)) in E. rewrite !read_hex in E. cbn [read_digits] in E.
  change (16 ^ N.of_nat 16) with (2 ^ 64) in E. rewrite !N.mod_small in E by done. injection E as E. lia.
Qed.
Lemma bytes_ok s : Forall (fun b => b < 256) (text_bytes s).
Proof. unfold text_bytes. apply Forall_fmap. apply Forall_forall. intros c _. cbn. destruct c as [[] [] [] [] [] [] [] []]; vm_compute; reflexivity. Qed.
(** Texts that differ in one place have different identifiers. *)
Lemma one_place d l d' l' a x y b : canonical_json d l = (a ++ String x b)%string -> canonical_json d' l' = (a ++ String y b)%string -> x <> y -> aggregate_id d l <> aggregate_id d' l'.
Proof.
  intros H H' Hxy E. unfold aggregate_id in E. apply (f_equal list_ascii_of_string) in E. rewrite !Lapp in E. apply app_inj, Linj in E.
  apply hex16_inj in E; [|unfold fnv1a_64; apply fold_bound; vm_compute; reflexivity..]. rewrite H, H' in E. unfold text_bytes in E.
  rewrite !Lapp, !map_app in E. cbn [list_ascii_of_string map] in E. apply fnv_one in E; [|apply bytes_ok|apply (Forall_inv (bytes_ok (String x "")))|apply (Forall_inv (bytes_ok (String y "")))].
  apply Hxy. apply (f_equal ascii_of_N) in E. by rewrite !ascii_N_embedding in E.
Qed.
Lemma same_pf d l l' : Permutation l l' -> aggregate_id d l = aggregate_id d l'.
Proof. intros H. unfold aggregate_id, canonical_json. apply sort_iff in H. by rewrite H. Qed.
Lemma shape_pf d l : exists h, h < 2 ^ 64 /\ aggregate_id d l = ("0x" ++ hex_digits 16 h "")%string.
Proof. eexists. split; [|reflexivity]. unfold fnv1a_64. apply fold_bound. vm_compute. reflexivity. Qed.
