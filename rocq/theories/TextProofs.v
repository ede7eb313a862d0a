From Coq Require Import Ascii String.
From Verif Require Import TextSpec ServeThms.
Local Open Scope N_scope.

Definition nibbles : list N := [0;1;2;3;4;5;6;7;8;9;10;11;12;13;14;15]%list.
Lemma nibble d : d < 16 -> d ∈ nibbles.
Proof.
  intros H. assert (forall n : nat, (n < 16)%nat -> N.of_nat n ∈ nibbles) as G.
  { intros n Hn. do 16 (destruct n as [|n]; [apply elem_of_list_In; vm_compute; tauto|]). lia. }
  rewrite <- (N2Nat.id d). apply G. lia.
Qed.
Definition digit_check (a : ascii) : bool :=
  match hex_val a with
  | Some x => (x <? 16) && Ascii.eqb (lower a) (lower_digit x)
  | None => forallb (fun d => negb (Ascii.eqb (lower a) (lower_digit d))) nibbles
  end.
Lemma digit_check_all a : digit_check a = true.
Proof. destruct a as [[] [] [] [] [] [] [] []]; reflexivity. Qed.
Lemma lower_digit_inj x y : x < 16 -> y < 16 -> lower_digit x = lower_digit y -> x = y.
Proof.
  intros Hx Hy. assert (forallb (fun a => forallb (fun b => negb (Ascii.eqb (lower_digit a) (lower_digit b)) || (a =? b)) nibbles) nibbles = true) as G by reflexivity.
  rewrite forallb_forall in G. specialize (G x (proj1 (elem_of_list_In _ _) (nibble x Hx))). rewrite forallb_forall in G.
  specialize (G y (proj1 (elem_of_list_In _ _) (nibble y Hy))). intros H. rewrite H, Ascii.eqb_refl in G. by apply N.eqb_eq in G.
Qed.
Lemma lower_digit_char d : d < 16 -> lower_digit d = hex_char d.
Proof.
  intros H. assert (forallb (fun a => Ascii.eqb (lower_digit a) (hex_char a)) nibbles = true) as G by reflexivity.
  rewrite forallb_forall in G. specialize (G d (proj1 (elem_of_list_In _ _) (nibble d H))). by apply Ascii.eqb_eq in G.
Qed.
Lemma lower_digit_x d : d < 16 -> lower_digit d <> "x"%char.
Proof.
  intros H. assert (forallb (fun a => negb (Ascii.eqb (lower_digit a) "x")) nibbles = true) as G by reflexivity.
  rewrite forallb_forall in G. specialize (G d (proj1 (elem_of_list_In _ _) (nibble d H))). intros E. rewrite E in G. done.
Qed.
Lemma hex_val_iff a x : hex_val a = Some x <-> x < 16 /\ lower a = lower_digit x.
Proof.
  pose proof (digit_check_all a) as H. unfold digit_check in H. destruct (hex_val a) as [y|].
  - apply andb_true_iff in H as [Hy He]. apply N.ltb_lt in Hy. apply Ascii.eqb_eq in He. split.
    + by intros [= <-].
    + intros [Hx Hl]. rewrite He in Hl. f_equal. by apply lower_digit_inj.
  - split; [done|]. intros [Hx Hl]. exfalso. rewrite forallb_forall in H.
    specialize (H x (proj1 (elem_of_list_In _ _) (nibble x Hx))). rewrite Hl, Ascii.eqb_refl in H. done.
Qed.
Lemma lowercase_nil s : lowercase s = EmptyString -> s = EmptyString.
Proof. by destruct s. Qed.

Lemma decode_iff l : forall t, hex_decode t = Some l <-> Forall (fun b => b < 256) l /\ lowercase t = lower_hex l.
Proof.
  induction l as [|b l IH]; intros t.
  - destruct t as [|a [|a' t]]; cbn; [done|by split; [|intros [_ ?]]|].
    split; [|by intros [_ ?]]. destruct (hex_val a), (hex_val a'), (hex_decode t); done.
  - destruct t as [|a [|a' t]]; cbn [hex_decode lowercase lower_hex].
    + split; [done|]. by intros [_ ?].
    + split; [done|]. by intros [_ ?].
    + assert (16 * (b / 16) + b mod 16 = b) as Hb by (symmetry; apply N.div_mod'). split.
      * destruct (hex_val a) as [x|] eqn:Ha; [|done]. destruct (hex_val a') as [y|] eqn:Ha'; [|done].
        destruct (hex_decode t) as [r|] eqn:Hr; [|done]. intros [= <- <-].
        apply hex_val_iff in Ha as [Hx ->]. apply hex_val_iff in Ha' as [Hy ->]. apply IH in Hr as [Hf ->].
        assert ((16 * x + y) / 16 = x) as -> by (symmetry; apply (N.div_unique _ _ _ y); lia).
        assert ((16 * x + y) mod 16 = y) as -> by (symmetry; apply (N.mod_unique _ _ x); lia).
        split; [constructor; [lia|done]|done].
      * intros [Hf [= H1 H2 H3]]. apply Forall_cons in Hf as [Hb' Hf].
        assert (hex_val a = Some (b / 16)) as ->.
        { apply hex_val_iff. split; [|done]. apply N.div_lt_upper_bound; lia. }
        assert (hex_val a' = Some (b mod 16)) as ->.
        { apply hex_val_iff. split; [|done]. apply N.mod_lt. lia. }
        rewrite (proj2 (IH t)) by done. by rewrite Hb.
Qed.

Lemma be_snoc l b : be (l ++ [b]) = 256 * be l + b.
Proof. unfold be. by rewrite fold_left_app. Qed.
Lemma lower_hex_app l k : lower_hex (l ++ k) = (lower_hex l ++ lower_hex k)%string.
Proof. induction l as [|b l IH]; [done|]. cbn [lower_hex app]. rewrite IH. reflexivity. Qed.
Lemma str_assoc (s t u : string) : ((s ++ t) ++ u = s ++ (t ++ u))%string.
Proof. induction s as [|c s IH]; [done|]. change (String c ((s ++ t) ++ u) = String c (s ++ (t ++ u)))%string. by rewrite IH. Qed.
Lemma digits_hex l : forall tail, Forall (fun b => b < 256) l -> hex_digits (2 * length l) (be l) tail = (lower_hex l ++ tail)%string.
Proof.
  induction l as [|b l IH] using rev_ind; intros tail H; [done|].
  apply Forall_app in H as [Hl Hb]. apply Forall_inv in Hb.
  rewrite app_length. cbn [length]. rewrite Nat.add_1_r, Nat.mul_succ_r, Nat.add_comm. cbn [Nat.add hex_digits].
  assert (be (l ++ [b]) / 16 / 16 = be l) as ->.
  { rewrite be_snoc, N.div_div by lia. symmetry. apply (N.div_unique _ _ _ b); lia. }
  rewrite IH by done. rewrite lower_hex_app, str_assoc. f_equal. cbn [lower_hex].
  assert (b / 16 < 16) by (apply N.div_lt_upper_bound; lia). assert (b mod 16 < 16) by (apply N.mod_lt; lia).
  rewrite !lower_digit_char by done.
  assert (be (l ++ [b]) / 16 mod 16 = b / 16) as ->.
  { rewrite be_snoc. assert ((256 * be l + b) / 16 = be l * 16 + b / 16) as ->.
    { symmetry. apply (N.div_unique _ _ _ (b mod 16)); [done|]. pose proof (N.div_mod' b 16). lia. }
    symmetry. apply (N.mod_unique _ _ (be l)); lia. }
  assert (be (l ++ [b]) mod 16 = b mod 16) as ->.
  { rewrite be_snoc. symmetry. apply (N.mod_unique _ _ (16 * be l + b / 16)); [done|]. pose proof (N.div_mod' b 16). lia. }
  reflexivity.
Qed.
Lemma digits_bytes k l : nbytes k l -> hex_digits (2 * k) (be l) EmptyString = lower_hex l.
Proof.
  intros [<- H]. rewrite digits_hex by done. generalize (lower_hex l). intros s. induction s as [|c s IH]; [done|].
  change (String c (s ++ "") = String c s)%string. by rewrite IH.
Qed.

Lemma strip_spec s t : str_strip "0x" s = Some t <-> s = ("0x" ++ t)%string.
Proof.
  destruct s as [|a [|b s]].
  - split; [done|]. intros H. done.
  - cbn [str_strip]. destruct (Ascii.eqb "0" a); (split; [done|]); intros H; done.
  - cbn [str_strip]. change ("0x" ++ t)%string with (String "0" (String "x" t)).
    destruct (Ascii.eqb_spec "0" a) as [<-|H1]; [destruct (Ascii.eqb_spec "x" b) as [<-|H2]|].
    + split; [by intros [= ->]|by intros [= ->]].
    + split; [done|]. intros E. injection E as E1 _. by symmetry in E1.
    + split; [done|]. intros E. injection E as E1 _ _. by symmetry in E1.
Qed.
Lemma strip_decode s l : hex_decode (strip_0x s) = Some l <->
  Forall (fun b => b < 256) l /\ exists t, (s = t \/ s = ("0x" ++ t)%string) /\ lowercase t = lower_hex l.
Proof.
  unfold strip_0x. destruct (str_strip "0x" s) as [u|] eqn:Hu.
  - apply strip_spec in Hu as ->. rewrite decode_iff. split.
    + intros [Hf Hl]. split; [done|]. exists u. by split; [right|].
    + intros [Hf (t & [<-|Ht] & Hl)]; (split; [done|]).
      * exfalso. destruct l as [|b l]; [done|]. change ("0x" ++ u)%string with (String "0" (String "x" u)) in Hl.
        cbn [lowercase lower_hex] in Hl. injection Hl as _ Hl _. change (lower "x") with "x"%char in Hl.
        symmetry in Hl. apply lower_digit_x in Hl; [done|]. apply N.mod_lt. lia.
      * change ("0x" ++ u)%string with (String "0" (String "x" u)) in Ht. change ("0x" ++ t)%string with (String "0" (String "x" t)) in Ht.
        by injection Ht as ->.
  - rewrite decode_iff. split.
    + intros [Hf Hl]. split; [done|]. exists s. by split; [left|].
    + intros [Hf (t & [->|Ht] & Hl)]; [done|]. exfalso. apply strip_spec in Ht. by rewrite Ht in Hu.
Qed.
Lemma sized_iff k s l :
  match hex_decode (strip_0x s) with Some r => if Nat.eqb (length r) k then Some r else None | None => None end = Some l <-> denotes k s l.
Proof.
  unfold denotes. split.
  - destruct (hex_decode (strip_0x s)) as [r|] eqn:Hr; [|done]. destruct (Nat.eqb_spec (length r) k) as [Hk|]; [|done].
    intros [= <-]. apply strip_decode in Hr as (Hf & t & Ht & Hl). assert (nbytes k r) as Hb by done. split; [done|].
    exists t. split; [done|]. by rewrite (digits_bytes _ _ Hb).
  - intros (Hb & t & Ht & Hl). rewrite (digits_bytes _ _ Hb) in Hl.
    assert (hex_decode (strip_0x s) = Some l) as ->. { apply strip_decode. split; [apply Hb|]. by exists t. }
    by rewrite (proj1 Hb), Nat.eqb_refl.
Qed.
Lemma read_root_pf s l : h256_deserialize s = Some l <-> denotes 32 s l.
Proof. apply sized_iff. Qed.
Lemma read_key_pf s l : deser_pubkey_hex s = Some l <-> denotes 52 s l.
Proof. apply sized_iff. Qed.
Lemma be_bound l : Forall (fun b => b < 256) l -> be l < 256 ^ N.of_nat (length l).
Proof.
  induction l as [|b l IH] using rev_ind; intros H; [done|]. apply Forall_app in H as [Hl Hb]. apply Forall_inv in Hb.
  rewrite be_snoc, app_length. cbn [length]. rewrite Nat.add_1_r, Nat2N.inj_succ, N.pow_succ_r'. specialize (IH Hl). lia.
Qed.
Lemma be_inj k l l' : nbytes k l -> nbytes k l' -> be l = be l' -> l = l'.
Proof.
  intros [Hk Hf] [Hk' Hf']. revert k l' Hk Hk' Hf'. induction l as [|b l IH] using rev_ind; intros k l' Hk Hk' Hf' He.
  - destruct l'; [done|]. cbn in *. lia.
  - destruct l' as [|b' l' _] using rev_ind; [rewrite app_length in Hk; cbn in *; lia|].
    apply Forall_app in Hf as [Hf Hb]. apply Forall_app in Hf' as [Hf' Hb']. apply Forall_inv in Hb, Hb'.
    rewrite app_length in Hk, Hk'. cbn [length] in Hk, Hk'. rewrite !be_snoc in He.
    assert (be l = be l' /\ b = b') as [Hl ->] by lia.
    f_equal. apply (IH Hf (length l)); try done. lia.
Qed.
Lemma display_pf l : nbytes 32 l -> h256_display l = root_id (be l) /\ be l < 2 ^ 256.
Proof.
  intros H. split.
  - unfold h256_display, root_id. do 2 f_equal. symmetry. exact (digits_bytes _ _ H).
  - destruct H as [Hk Hf]. pose proof (be_bound l Hf) as G. rewrite Hk in G. exact G.
Qed.
Lemma lower_fix d : d < 16 -> lower (lower_digit d) = lower_digit d.
Proof.
  intros H. assert (forallb (fun a => Ascii.eqb (lower (lower_digit a)) (lower_digit a)) nibbles = true) as G by reflexivity.
  rewrite forallb_forall in G. specialize (G d (proj1 (elem_of_list_In _ _) (nibble d H))). by apply Ascii.eqb_eq in G.
Qed.
Lemma lower_hex_fix l : Forall (fun b => b < 256) l -> lowercase (lower_hex l) = lower_hex l.
Proof.
  induction 1 as [|b l Hb Hl IH]; [done|]. cbn [lower_hex lowercase]. rewrite IH, !lower_fix; [done|apply N.mod_lt; lia|apply N.div_lt_upper_bound; lia].
Qed.
Lemma round_trip_pf l : nbytes 32 l -> h256_deserialize (h256_display l) = Some l.
Proof.
  intros H. apply read_root_pf. split; [done|]. exists (lower_hex l). split; [by right|].
  rewrite lower_hex_fix by apply H. symmetry. by apply digits_bytes.
Qed.
Lemma same_root_pf s s' l l' : h256_deserialize s = Some l -> h256_deserialize s' = Some l' -> (l = l' <-> same_text s s').
Proof.
  rewrite !read_root_pf. intros (Hb & t & Ht & Hl) (Hb' & t' & Ht' & Hl'). split.
  - intros <-. exists t, t'. split; [done|]. split; [done|]. by rewrite Hl, Hl'.
  - intros (u & u' & Hu & Hu' & He).
    assert (forall r v w m, nbytes 32 m -> (r = v \/ r = ("0x" ++ v)%string) -> lowercase v = hex_digits (2 * 32) (be m) EmptyString ->
      (r = w \/ r = ("0x" ++ w)%string) -> w = v \/ w = ("0x" ++ v)%string \/ ("0x" ++ w)%string = v) as C.
    { intros r v w m _ [Hv|Hv] _ [Hw|Hw].
      - left. congruence.
      - right. right. congruence.
      - right. left. congruence.
      - left. rewrite Hv in Hw. change (String "0" (String "x" v) = String "0" (String "x" w)) in Hw. by injection Hw as ->. }
    assert (forall v w, lowercase v = lowercase w -> String.length v = String.length w) as L.
    { induction v as [|c v IH]; intros [|c' w] H; cbn in H; try done. injection H as _ H. cbn. f_equal. by apply IH. }
    assert (String.length t = 64%nat /\ String.length t' = 64%nat) as [L1 L2].
    { assert (forall v n, lowercase v = hex_digits 64 n EmptyString -> String.length v = 64%nat) as Q.
      { intros v n H. rewrite (L v (lowercase v)), H, hex_length; [done|]. clear. induction v as [|c v IH]; [done|]. cbn. f_equal; [|done].
        revert c. assert (forall c, Ascii.eqb (lower c) (lower (lower c)) = true) as G by (intros [[] [] [] [] [] [] [] []]; reflexivity).
        intros c. apply Ascii.eqb_eq, G. }
      split; eapply Q; eassumption. }
    specialize (L u u' He).
    assert (lowercase t = lowercase t' -> l = l') as J.
    { intros E. rewrite Hl, Hl', (digits_bytes _ _ Hb), (digits_bytes _ _ Hb') in E.
      assert (hex_decode (lower_hex l) = Some l) as A by (apply decode_iff; split; [apply Hb|apply lower_hex_fix, Hb]).
      assert (hex_decode (lower_hex l') = Some l') as B by (apply decode_iff; split; [apply Hb'|apply lower_hex_fix, Hb']).
      rewrite E, B in A. by injection A as ->. }
    assert (u = t /\ u' = t' \/ (u = ("0x" ++ t)%string /\ u' = ("0x" ++ t')%string)) as [[-> ->]|[-> ->]].
    { assert (forall v, String.length ("0x" ++ v) = S (S (String.length v))) as LL by done.
      destruct (C _ _ _ _ Hb Ht Hl Hu) as [A|[A|A]]; destruct (C _ _ _ _ Hb' Ht' Hl' Hu') as [B|[B|B]]; subst; rewrite ?LL in *; auto; try lia.
      exfalso. (* both shorter: the original would begin with 0x *)
      change ("0x" ++ u)%string with (String "0" (String "x" u)) in Hl. rewrite (digits_bytes _ _ Hb) in Hl.
      destruct l as [|b l]; [done|]. cbn [lowercase lower_hex] in Hl. injection Hl as _ Hl _. change (lower "x") with "x"%char in Hl.
      symmetry in Hl. apply lower_digit_x in Hl; [done|]. apply N.mod_lt. lia. }
    + by apply J.
    + apply J. change (String "0" (String "x" (lowercase t)) = String "0" (String "x" (lowercase t'))) in He. by injection He.
Qed.
