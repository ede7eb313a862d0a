From Coq Require Import Ascii String.
From Verif Require Import TextSpec TextProofs KeyFiles ServeThms.
Local Open Scope N_scope.

Lemma entries_iff l : forall r, parse_entries l = Some r <->
  Forall2 (fun e v => exists x y, denotes 52 (fst e) x /\ denotes 52 (snd e) y /\ v = (be x, be y)) l r.
Proof.
  induction l as [|[a p] l IH]; intros r; cbn [parse_entries].
  - split; [by intros [= <-]|]. intros H. by inversion H.
  - split.
    + destruct (deser_pubkey_hex a) as [x|] eqn:Ha; [|done]. destruct (deser_pubkey_hex p) as [y|] eqn:Hp; [|done].
      destruct (parse_entries l) as [r'|] eqn:Hr; [|done]. intros [= <-]. constructor; [|by apply IH].
      exists x, y. cbn [fst snd]. by rewrite <- !read_key_pf.
    + intros H. inversion H as [|e v l0 r' (x & y & Hx & Hy & ->) Hf]; subst. cbn [fst snd] in *.
      apply read_key_pf in Hx as ->. apply read_key_pf in Hy as ->. by rewrite (proj2 (IH r') Hf).
Qed.
Lemma genesis_pf time l c : parse_genesis time l = Some c <->
  gc_time c = time /\
  Forall2 (fun e v => exists x y, denotes 52 (fst e) x /\ denotes 52 (snd e) y /\ v = (be x, be y)) l (gc_entries c).
Proof.
  unfold parse_genesis. split.
  - destruct (parse_entries l) as [r|] eqn:Hr; [|done]. intros [= <-]. split; [done|]. by apply entries_iff.
  - intros [Ht Hf]. apply entries_iff in Hf as ->. destruct c. cbn in *. by subst.
Qed.
Lemma lowercase_length v : String.length (lowercase v) = String.length v.
Proof. induction v as [|c v IH]; [done|]. cbn. by rewrite IH. Qed.
Lemma lowercase_idem v : lowercase (lowercase v) = lowercase v.
Proof.
  induction v as [|c v IH]; [done|]. cbn. rewrite IH. f_equal.
  assert (forall c, Ascii.eqb (lower (lower c)) (lower c) = true) as G by (intros [[] [] [] [] [] [] [] []]; reflexivity).
  apply Ascii.eqb_eq, G.
Qed.
Lemma plain_iff k t l : nbytes k l /\ lowercase t = hex_digits (2 * k) (be l) EmptyString <-> hex_decode t = Some l /\ length l = k.
Proof.
  split.
  - intros [Hb Ht]. rewrite (digits_bytes _ _ Hb) in Ht. split; [apply decode_iff; split; [apply Hb|done]|apply Hb].
  - intros [Hd Hk]. apply decode_iff in Hd as [Hf Ht]. assert (nbytes k l) as Hb by done. split; [done|]. by rewrite (digits_bytes _ _ Hb).
Qed.
Lemma decode_ok n : forall s, String.length s = (2 * n)%nat ->
  forallb (fun c => bool_decide (hex_val c <> None)) (list_ascii_of_string s) = true <-> exists l, hex_decode s = Some l /\ length l = n.
Proof.
  induction n as [|n IH]; intros s Hs.
  - destruct s; [|done]. split; [|done]. intros _. by exists [].
  - destruct s as [|a [|b s]]; cbn in Hs; [lia..|]. cbn [list_ascii_of_string forallb hex_decode].
    rewrite !andb_true_iff, !bool_decide_eq_true, IH by lia. split.
    + intros (Ha & Hb & l & -> & Hl). destruct (hex_val a), (hex_val b); try done. eexists. split; [done|]. cbn. by rewrite Hl.
    + intros (l & Hd & Hl). destruct (hex_val a), (hex_val b), (hex_decode s) as [r|]; try done. injection Hd as <-.
      split; [done|]. split; [done|]. exists r. split; [done|]. cbn in Hl. lia.
Qed.
Lemma annotated_pf s : pubkey_ok s = true <-> exists l, nbytes 52 l /\ lowercase s = hex_digits (2 * 52) (be l) EmptyString.
Proof.
  unfold pubkey_ok. rewrite andb_true_iff, Nat.eqb_eq. split.
  - intros [Hs Hf]. apply (decode_ok 52 s Hs) in Hf as (l & Hl). exists l. by apply plain_iff.
  - intros (l & Hl). pose proof Hl as [_ Hs]. apply plain_iff in Hl.
    assert (String.length s = 104%nat) as Hn by (rewrite <- lowercase_length, Hs, hex_length; done).
    split; [done|]. apply (decode_ok 52 s Hn). by exists l.
Qed.
Lemma same_key_pf k s s' l l' : denotes k s l -> denotes k s' l' -> be l = be l' <-> l = l'.
Proof. intros [H _] [H' _]. split; [by apply (be_inj k)|by intros ->]. Qed.
