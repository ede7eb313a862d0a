(** Proofs about the keys. *)
From Verif Require Export Keys Lib.

Lemma to_be_length k n : length (to_be k n) = k.
Proof. induction k; cbn; [done|]. by rewrite IHk. Qed.
Lemma to_be_ok k n : Forall (fun b => b < 256) (to_be k n).
Proof. induction k; cbn [to_be]; constructor; [apply N.mod_lt; done|done]. Qed.
Lemma of_be_acc l acc : fold_left (fun acc b => acc * 256 + b) l acc = acc * 256 ^ lenN l + of_be l.
Proof.
  unfold of_be. revert acc. induction l as [|x l IH]; intros acc; cbn [fold_left].
  - rewrite lenN_nil, N.pow_0_r. lia.
  - rewrite IH, (IH (0 * 256 + x)), lenN_cons, N.add_1_r, N.pow_succ_r'. lia.
Qed.
Lemma of_be_cons x l : of_be (x :: l) = x * 256 ^ lenN l + of_be l.
Proof. unfold of_be at 1. cbn [fold_left]. rewrite of_be_acc. f_equal. Qed.
Lemma of_be_app a b : of_be (a ++ b) = of_be a * 256 ^ lenN b + of_be b.
Proof. unfold of_be at 1. rewrite fold_left_app. by rewrite of_be_acc. Qed.
Lemma of_be_lt l : Forall (fun b => b < 256) l -> of_be l < 256 ^ lenN l.
Proof.
  induction l as [|x l IH]; [done|]. intros [Hx Hl]%Forall_cons. specialize (IH Hl).
  rewrite of_be_cons, lenN_cons, N.add_1_r, N.pow_succ_r'. nia.
Qed.
Lemma of_to_be k n : of_be (to_be k n) = n mod 256 ^ N.of_nat k.
Proof.
  induction k as [|k IH]; cbn [to_be].
  - change (256 ^ N.of_nat 0) with 1. by rewrite N.mod_1_r.
  - rewrite of_be_cons, IH. unfold lenN. rewrite to_be_length.
    rewrite Nat2N.inj_succ, N.pow_succ_r'. set (P := 256 ^ N.of_nat k).
    assert (P <> 0) by (apply N.pow_nonzero; done).
    rewrite (N.mul_comm 256 P), N.mod_mul_r by done. lia.
Qed.

Lemma lex_of_be a b :
  Forall (fun b => b < 256) a -> Forall (fun b => b < 256) b -> length a = length b ->
  lex_lt a b <-> of_be a < of_be b.
Proof.
  revert b. induction a as [|x a IH]; intros [|y b] Ha Hb Hl; try done; cbn [lex_lt].
  apply Forall_cons in Ha as [Hx Ha], Hb as [Hy Hb]. injection Hl as Hl.
  rewrite (IH b) by done. rewrite !of_be_cons.
  pose proof (of_be_lt _ Ha). pose proof (of_be_lt _ Hb).
  assert (lenN a = lenN b) as Hab by (unfold lenN; by rewrite Hl).
  rewrite Hab in *. set (P := 256 ^ lenN b) in *. split.
  - intros [Hlt|[-> Hlt]]; [|lia].
    assert (x + 1 <= y) as Hle by lia. assert (x * P + P <= y * P); nia.
  - intros Hlt. destruct (N.lt_total x y) as [?|[->|Hgt]]; [by left|right; split; [done|lia]|].
    exfalso. assert (y * P + P <= x * P); nia.
Qed.
Lemma lex_app a b x y :
  length a = length b -> lex_lt (a ++ x) (b ++ y) <-> lex_lt a b \/ (a = b /\ lex_lt x y).
Proof.
  revert b. induction a as [|c a IH]; intros [|d b] Hl; try done; cbn [app lex_lt].
  - split; [by right|]. by intros [[]|[_ ?]].
  - injection Hl as Hl. rewrite IH by done. split.
    + intros [?|[-> [?|[-> ?]]]]; [by left; left|left; right; done|right; done].
    + intros [[?|[-> ?]]|[[= -> ->] ?]]; [by left|right; split; [done|by left]|right; split; [done|by right]].
Qed.
Lemma to_be_inj k n m : n < 256 ^ N.of_nat k -> m < 256 ^ N.of_nat k -> to_be k n = to_be k m -> n = m.
Proof.
  intros Hn Hm H. rewrite <- (N.mod_small n (256 ^ N.of_nat k)), <- (N.mod_small m (256 ^ N.of_nat k)) by done.
  by rewrite <- !of_to_be, H.
Qed.
Lemma lex_to_be k n m : n < 256 ^ N.of_nat k -> m < 256 ^ N.of_nat k -> lex_lt (to_be k n) (to_be k m) <-> n < m.
Proof.
  intros Hn Hm. rewrite lex_of_be; [|apply to_be_ok|apply to_be_ok|by rewrite !to_be_length].
  rewrite !of_to_be, !N.mod_small by done. done.
Qed.

Lemma key_decode slot root :
  slot < 2 ^ 64 -> root < 2 ^ 256 ->
  decode_slot_root_key (encode_slot_root_key slot root) = Ok (slot, root).
Proof.
  intros Hs Hr. unfold decode_slot_root_key, encode_slot_root_key.
  rewrite take_app_alt, drop_app_alt by (by rewrite to_be_length).
  rewrite app_length, !to_be_length. cbn [Nat.ltb Nat.leb Nat.add Nat.eqb negb].
  rewrite !of_to_be, !N.mod_small; [done|exact Hr|exact Hs].
Qed.
Lemma key_lex slot root slot' root' :
  slot < 2 ^ 64 -> slot' < 2 ^ 64 -> root < 2 ^ 256 -> root' < 2 ^ 256 ->
  lex_lt (encode_slot_root_key slot root) (encode_slot_root_key slot' root') <->
  slot < slot' \/ (slot = slot' /\ root < root').
Proof.
  intros H1 H2 H3 H4. unfold encode_slot_root_key. rewrite lex_app by (by rewrite !to_be_length).
  rewrite !lex_to_be by done. split; (intros [?|[Heq ?]]; [by left|right]).
  - split; [|done]. by apply (to_be_inj 8).
  - by subst.
Qed.
Lemma bare_lex slot root slot' :
  slot < 2 ^ 64 -> slot' < 2 ^ 64 -> 
  lex_lt (encode_slot_root_key slot root) (encode_block_root_key slot') <-> slot < slot'.
Proof.
  intros H1 H2. unfold encode_slot_root_key, encode_block_root_key.
  rewrite <- (app_nil_r (to_be 8 slot')), lex_app by (by rewrite !to_be_length).
  rewrite lex_to_be by done. split; [|by left]. intros [?|[_ ?]]; [done|].
  by destruct (to_be 32 root).
Qed.
