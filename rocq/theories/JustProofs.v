(** Lemmas: justified-slot window, proposer schedule, justifiable distances. *)
From Verif Require Export STFSpec Lib.

(** ** Window *)
Lemma relative_index_None t fin : relative_index t fin = None <-> t <= fin.
Proof.
  unfold relative_index. destruct (N.ltb_spec t fin); [split; [lia|done]|].
  destruct (N.ltb_spec (t - fin) 1); split; try done; lia.
Qed.
Lemma relative_index_Some t fin i : relative_index t fin = Some i <-> fin < t /\ i = t - fin - 1.
Proof.
  unfold relative_index. destruct (N.ltb_spec t fin); [split; [done|lia]|].
  destruct (N.ltb_spec (t - fin) 1); split.
  - done.
  - lia.
  - intros [= <-]. lia.
  - intros [? ->]. done.
Qed.
Lemma relative_index_cases t fin :
  (t <= fin /\ relative_index t fin = None) \/
  (fin < t /\ relative_index t fin = Some (t - fin - 1)).
Proof.
  destruct (decide (t <= fin)).
  - left. split; [done|]. by apply relative_index_None.
  - right. split; [lia|]. apply relative_index_Some. lia.
Qed.

Lemma is_slot_justified_status js fin t :
  is_slot_justified js fin t =
  match status js fin t with Some b => Ok b | None => Err JustifiedSlotOutOfRange end.
Proof.
  unfold is_slot_justified, status.
  destruct (relative_index_cases t fin) as [[H ->]|[H ->]].
  - destruct (N.leb_spec t fin); [done|lia].
  - destruct (N.leb_spec t fin); [lia|]. rewrite getN_lookup. done.
Qed.

Lemma status_le js fin t : t <= fin -> status js fin t = Some true.
Proof. intros. unfold status. destruct (N.leb_spec t fin); [done|lia]. Qed.
Lemma status_gt js fin t : fin < t -> status js fin t = js !! N.to_nat (t - fin - 1).
Proof. intros. unfold status. destruct (N.leb_spec t fin); [lia|done]. Qed.
Lemma status_tracked js fin t :
  is_Some (status js fin t) <-> t <= fin + lenN js.
Proof.
  destruct (decide (t <= fin)).
  - rewrite status_le by done. split; [unfold lenN; lia|by eauto].
  - rewrite status_gt by lia. rewrite lookup_lt_is_Some. unfold lenN. lia.
Qed.

Lemma set_justified_spec js fin t js' :
  set_justified js fin t = Ok js' ->
  forall u, status js' fin u = if u =? t then Some true else status js fin u.
Proof.
  unfold set_justified. destruct (relative_index_cases t fin) as [[H ->]|[H ->]].
  - intros [= <-] u. destruct (N.eqb_spec u t) as [->|]; [|done]. by apply status_le.
  - unfold set_bit. destruct (N.ltb_spec (t - fin - 1) (lenN js)) as [Hlt|]; [|done].
    intros [= <-] u. destruct (N.eqb_spec u t) as [->|Hne].
    + rewrite status_gt by done. apply list_lookup_insert. unfold lenN in Hlt. lia.
    + destruct (decide (u <= fin)); [by rewrite !status_le|].
      rewrite !status_gt by lia. apply list_lookup_insert_ne. lia.
Qed.
Lemma set_justified_length js fin t js' :
  set_justified js fin t = Ok js' -> lenN js' = lenN js.
Proof.
  unfold set_justified. destruct (relative_index t fin); [|by intros [= <-]].
  unfold set_bit. destruct (n <? lenN js); [|done]. intros [= <-].
  unfold lenN. by rewrite insert_length.
Qed.
Lemma set_justified_ok js fin t :
  t <= fin + lenN js -> exists js', set_justified js fin t = Ok js'.
Proof.
  intros Ht. unfold set_justified. destruct (relative_index_cases t fin) as [[H ->]|[H ->]].
  - eauto.
  - unfold set_bit. destruct (N.ltb_spec (t - fin - 1) (lenN js)); [eauto|lia].
Qed.
Lemma set_justified_Err js fin t e : set_justified js fin t <> Err e.
Proof.
  unfold set_justified. destruct (relative_index t fin); [|done].
  destruct (set_bit js n); done.
Qed.

Lemma extend_to_slot_spec js fin t js' :
  extend_to_slot js fin t = Ok js' ->
  forall u, status js' fin u =
    match status js fin u with
    | Some b => Some b
    | None => if u <=? t then Some false else None
    end.
Proof.
  unfold extend_to_slot. destruct (relative_index_cases t fin) as [[H ->]|[H ->]].
  - intros [= <-] u. destruct (status js fin u) eqn:E; [done|].
    destruct (N.leb_spec u t); [|done]. rewrite status_le in E by lia. done.
  - destruct (N.leb_spec (t - fin - 1 + 1) (lenN js)).
    + intros [= <-] u. destruct (status js fin u) eqn:E; [done|].
      destruct (N.leb_spec u t); [|done]. exfalso.
      assert (is_Some (status js fin u)) as [? Hs] by (apply status_tracked; lia).
      by rewrite Hs in E.
    + destruct (HISTORICAL_ROOTS_LIMIT <? t - fin - 1 + 1); [done|].
      intros [= <-] u. destruct (decide (u <= fin)); [by rewrite !status_le|].
      rewrite !status_gt by lia. unfold lenN in *.
      destruct (decide (N.to_nat (u - fin - 1) < length js)%nat) as [Hlt|Hge].
      * rewrite lookup_app_l by done.
        destruct (lookup_lt_is_Some_2 js _ Hlt) as [b Hb]. by rewrite Hb.
      * rewrite lookup_app_r by lia.
        rewrite (lookup_ge_None_2 js) by lia.
        destruct (N.leb_spec u t).
        -- apply lookup_replicate_2. lia.
        -- apply lookup_replicate_None. lia.
Qed.
Lemma extend_to_slot_length js fin t js' :
  extend_to_slot js fin t = Ok js' ->
  lenN js' = N.max (lenN js) (t - fin).
Proof.
  unfold extend_to_slot. destruct (relative_index_cases t fin) as [[H ->]|[H ->]].
  - intros [= <-]. lia.
  - destruct (N.leb_spec (t - fin - 1 + 1) (lenN js)).
    + intros [= <-]. lia.
    + destruct (HISTORICAL_ROOTS_LIMIT <? t - fin - 1 + 1); [done|].
      intros [= <-]. rewrite lenN_app, lenN_replicate. lia.
Qed.
Lemma extend_to_slot_ok js fin t :
  t - fin <= HISTORICAL_ROOTS_LIMIT -> exists js', extend_to_slot js fin t = Ok js'.
Proof.
  intros Hl. unfold extend_to_slot. destruct (relative_index_cases t fin) as [[H ->]|[H ->]].
  - eauto.
  - destruct (t - fin - 1 + 1 <=? lenN js); [eauto|].
    destruct (N.ltb_spec HISTORICAL_ROOTS_LIMIT (t - fin - 1 + 1)); [lia|eauto].
Qed.
Lemma extend_to_slot_Err js fin t e : extend_to_slot js fin t <> Err e.
Proof.
  unfold extend_to_slot. destruct (relative_index t fin); [|done].
  destruct (_ <=? _); [done|]. destruct (_ <? _); done.
Qed.

Lemma shift_window_spec js fin fin' :
  fin <= fin' -> forall u, fin' < u ->
  status (shift_window js (fin' - fin)) fin' u = status js fin u.
Proof.
  intros Hle u Hu. rewrite !status_gt by lia. unfold shift_window.
  destruct (N.eqb_spec (fin' - fin) 0).
  - f_equal. lia.
  - unfold lenN. destruct (N.leb_spec (N.of_nat (length js)) (fin' - fin)).
    + rewrite lookup_nil. symmetry. apply lookup_ge_None. lia.
    + rewrite lookup_drop. f_equal. lia.
Qed.
Lemma shift_window_length js d : lenN (shift_window js d) = lenN js - d.
Proof.
  unfold shift_window. destruct (N.eqb_spec d 0); [lia|].
  destruct (N.leb_spec (lenN js) d); [rewrite lenN_nil; lia|].
  unfold lenN in *. rewrite drop_length. lia.
Qed.

(** ** Proposer schedule *)
Lemma is_proposer_spec v slot n :
  is_proposer v slot n = true <-> 0 < n /\ v = slot mod n.
Proof.
  unfold is_proposer. rewrite bool_decide_eq_true. unfold current_proposer.
  destruct (N.ltb_spec 0 n); split.
  - intros [= <-]. done.
  - intros [_ ->]. done.
  - done.
  - lia.
Qed.

(** ** Justifiable distances *)
Lemma sqrt_square_iff d : N.sqrt d * N.sqrt d = d <-> exists k, d = k * k.
Proof.
  split; [intros H; exists (N.sqrt d); lia|].
  intros [k ->]. rewrite N.sqrt_square. done.
Qed.
Lemma pronic_iff d :
  (N.sqrt (4 * d + 1) * N.sqrt (4 * d + 1) = 4 * d + 1 /\ (4 * d + 1) mod 2 = 1)
  <-> exists k, d = k * (k + 1).
Proof.
  split.
  - intros [H _]. set (r := N.sqrt (4 * d + 1)) in *.
    assert (exists k, r = 2 * k + 1) as [k Hk].
    { exists (r / 2).
      assert (r mod 2 = 1) as Hr.
      { assert (r mod 2 < 2) by (apply N.mod_lt; lia).
        destruct (decide (r mod 2 = 0)) as [Hz|]; [|lia].
        exfalso. assert (r = 2 * (r / 2)) as Hr by (apply N.div_exact; lia).
        set (q := r / 2) in *. rewrite Hr in H.
        assert (2 * q * (2 * q) = 4 * (q * q)) as Hq by ring. lia. }
      assert (r = 2 * (r / 2) + r mod 2) by (apply N.div_mod; lia). lia. }
    exists k. rewrite Hk in H.
    assert ((2 * k + 1) * (2 * k + 1) = 4 * (k * (k + 1)) + 1) as E by ring. lia.
  - intros [k ->]. split.
    + replace (4 * (k * (k + 1)) + 1) with ((2 * k + 1) * (2 * k + 1)) by ring.
      rewrite N.sqrt_square. done.
    + set (x := k * (k + 1)). lia.
Qed.

Lemma justifiable_exact slot fin :
  slot - fin < 4611686018427387904 (* 2^62 *) ->
  slot_is_justifiable_after slot fin = true
  <-> fin <= slot /\ justifiable_distance (slot - fin).
Proof.
  intros Hb. unfold slot_is_justifiable_after.
  destruct (N.ltb_spec slot fin) as [Hlt|Hge]; [split; [done|lia]|].
  set (d := slot - fin) in *.
  unfold checked_mul, checked_add, two64.
  destruct (N.ltb_spec (d * 4) 18446744073709551616); [|lia].
  destruct (N.ltb_spec (d * 4 + 1) 18446744073709551616); [|lia].
  replace (d * 4 + 1) with (4 * d + 1) by lia.
  rewrite !orb_true_iff, andb_true_iff, N.leb_le, !N.eqb_eq.
  rewrite sqrt_square_iff, pronic_iff. unfold justifiable_distance.
  tauto.
Qed.

(** Beyond 2^62 the pronic rule is lost. *)
Lemma justifiable_large slot fin :
  4611686018427387904 <= slot - fin ->
  slot_is_justifiable_after slot fin = true
  <-> exists k, slot - fin = k * k.
Proof.
  intros Hb. unfold slot_is_justifiable_after.
  destruct (N.ltb_spec slot fin) as [Hlt|Hge]; [lia|].
  set (d := slot - fin) in *.
  unfold checked_mul, checked_add, two64.
  assert ((if d * 4 <? 18446744073709551616
           then Some (d * 4) else None) = None) as ->.
  { destruct (N.ltb_spec (d * 4) 18446744073709551616); [lia|done]. }
  rewrite !orb_true_iff, N.leb_le, !N.eqb_eq, sqrt_square_iff. split.
  - intros [[?|?]|?]; [lia|done|done].
  - tauto.
Qed.
