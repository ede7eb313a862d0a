(** Served blocks: the properties. *)
From Coq Require Import Ascii String.
From Verif Require Export ServeProofs FCMore.
Local Open Scope N_scope.

(** *** Block ids *)
Lemma read_app val base acc s c t : read_digits val base acc (String c s ++ t)%string =
  match val c with Some d => read_digits val base (acc * base + d) (s ++ t)%string | None => None end.
Proof. reflexivity. Qed.
Lemma digit_char d : d < 10 -> digit_val (pretty_N_char d) = Some d.
Proof.
  intros H. assert (d = 0 \/ d = 1 \/ d = 2 \/ d = 3 \/ d = 4 \/ d = 5 \/ d = 6 \/ d = 7 \/ d = 8 \/ d = 9) as Hd by lia.
  repeat (destruct Hd as [->|Hd]; [reflexivity|]). by rewrite Hd.
Qed.
Lemma read_pretty x s : read_digits digit_val 10 0 (pretty_N_go x s) = read_digits digit_val 10 x s.
Proof.
  revert s. induction (N.lt_wf_0 x) as [x _ IH]. intros s. destruct (N.eq_dec x 0) as [->|Hx].
  { by rewrite pretty_N_go_0. }
  rewrite pretty_N_go_step by lia. rewrite IH by (apply N.div_lt; lia). cbn [read_digits].
  rewrite digit_char by (apply N.mod_lt; lia). f_equal. rewrite (N.div_mod x 10) at 3 by lia. lia.
Qed.
Lemma pretty_nonempty (x : N) : pretty x <> EmptyString.
Proof.
  unfold pretty, pretty_N. case_decide; [done|]. rewrite pretty_N_go_step by lia.
  assert (forall y s c, pretty_N_go y (String c s) <> EmptyString) as Hne; [|apply Hne].
  intros y. induction (N.lt_wf_0 y) as [y _ IH]. intros s c. destruct (N.eq_dec y 0) as [->|Hy]; [by rewrite pretty_N_go_0|].
  rewrite pretty_N_go_step by lia. apply IH. apply N.div_lt; lia.
Qed.
Lemma parse_pretty x : x < two64 -> parse_slot (slot_id x) = Some x.
Proof.
  intros Hx. unfold parse_slot, slot_id. assert (read_digits digit_val 10 0 (pretty x) = Some x) as Hr.
  { unfold pretty, pretty_N. case_decide as H; [subst; reflexivity|]. by rewrite read_pretty. }
  destruct (pretty x) as [|c s] eqn:Hp; [by apply pretty_nonempty in Hp|].
  rewrite Hr. apply N.ltb_lt in Hx. by rewrite Hx.
Qed.
Lemma digits_no_prefix id x : parse_slot id = Some x -> str_strip "0x" id = None.
Proof.
  destruct id as [|c1 [|c2 id]]; [done| |].
  - intros _. cbn [str_strip]. by destruct (Ascii.eqb "0" c1).
  - intros H. cbn [str_strip]. destruct (Ascii.eqb "0" c1) eqn:H1; [|done]. destruct (Ascii.eqb "x" c2) eqn:H2; [|done].
    apply Ascii.eqb_eq in H2 as <-. apply Ascii.eqb_eq in H1 as <-. done.
Qed.
Lemma hex_char_val d : d < 16 -> hex_val (hex_char d) = Some d.
Proof.
  intros H. assert (d = 0 \/ d = 1 \/ d = 2 \/ d = 3 \/ d = 4 \/ d = 5 \/ d = 6 \/ d = 7 \/ d = 8 \/ d = 9 \/ d = 10 \/ d = 11 \/ d = 12
    \/ d = 13 \/ d = 14 \/ d = 15) as Hd by lia.
  repeat (destruct Hd as [->|Hd]; [reflexivity|]). by rewrite Hd.
Qed.
Lemma read_hex k : forall x acc tail, read_digits hex_val 16 acc (hex_digits k x tail) =
  read_digits hex_val 16 (acc * 16 ^ N.of_nat k + x mod 16 ^ N.of_nat k) tail.
Proof.
  induction k as [|k IH]; intros x acc tail.
  - cbn [hex_digits]. change (16 ^ N.of_nat 0) with 1. rewrite N.mod_1_r. f_equal. lia.
  - cbn [hex_digits]. rewrite IH. cbn [read_digits]. rewrite hex_char_val by (apply N.mod_lt; lia). f_equal.
    rewrite Nat2N.inj_succ, N.pow_succ_r'. rewrite (N.mod_mul_r x 16 (16 ^ N.of_nat k)) by (try apply N.pow_nonzero; lia). lia.
Qed.
Lemma hex_length k x tail : String.length (hex_digits k x tail) = (k + String.length tail)%nat.
Proof. revert x tail. induction k as [|k IH]; intros x tail; [done|]. cbn [hex_digits]. rewrite IH. cbn. lia. Qed.
Lemma parse_hex r : r < 2 ^ 256 -> str_strip "0x" (root_id r) = Some (hex_digits 64 r EmptyString) /\
  parse_root (hex_digits 64 r EmptyString) = Some r.
Proof.
  intros Hr. split; [reflexivity|]. unfold parse_root. rewrite hex_length. cbn [String.length]. rewrite Nat.add_0_r, Nat.eqb_refl.
  rewrite read_hex. cbn [read_digits]. f_equal. rewrite N.mul_0_l, N.add_0_l. apply N.mod_small.
  change (16 ^ N.of_nat 64) with (2 ^ 256). done.
Qed.

(** Which ids are well formed. *)
Lemma digit_iff c : is_Some (digit_val c) <-> dec_digit c.
Proof. unfold dec_digit. rewrite <- (bool_decide_spec (c ∈ _)). destruct c as [[] [] [] [] [] [] [] []]; vm_compute; split; intros H; try done; try (by destruct H); by eexists. Qed.
Lemma digit_value c d : digit_val c = Some d -> d = N_of_ascii c - 48.
Proof. unfold digit_val. destruct (_ && _); [|done]. by intros [= <-]. Qed.
Lemma hex_iff c : is_Some (hex_val c) <-> hex_digit c.
Proof. unfold hex_digit. rewrite <- (bool_decide_spec (c ∈ _)). destruct c as [[] [] [] [] [] [] [] []]; vm_compute; split; intros H; try done; try (by destruct H); by eexists. Qed.
Lemma read_some val base s : forall acc, is_Some (read_digits val base acc s) <-> Forall (fun c => is_Some (val c)) (list_ascii_of_string s).
Proof.
  induction s as [|c s IH]; intros acc; cbn [read_digits list_ascii_of_string].
  - split; [constructor|by eexists].
  - rewrite Forall_cons. destruct (val c) as [d|].
    + rewrite IH. split; [intros H; split; [by eexists|done]|by intros [_ ?]].
    + split; [by intros []|by intros [[] _]].
Qed.
Lemma read_value s : forall acc x, read_digits digit_val 10 acc s = Some x ->
  x = fold_left (fun a c => 10 * a + (N_of_ascii c - 48)) (list_ascii_of_string s) acc.
Proof.
  induction s as [|c s IH]; intros acc x; cbn [read_digits list_ascii_of_string fold_left]; [by intros [= ->]|].
  destruct (digit_val c) as [d|] eqn:Hd; [|done]. intros H. apply IH in H. rewrite (digit_value _ _ Hd) in H. rewrite H. f_equal. lia.
Qed.
Lemma strip_app p s t : str_strip p s = Some t <-> s = (p ++ t)%string.
Proof.
  revert s. induction p as [|a p IH]; intros s; cbn [str_strip String.append].
  - split; [by intros [= ->]|by intros ->].
  - destruct s as [|b s]; [done|]. destruct (Ascii.eqb_spec a b) as [->|Hne].
    + rewrite IH. split; [by intros ->|by intros [= ->]].
    + split; [done|]. intros [= ? ?]. congruence.
Qed.
Lemma slot_form s : is_Some (parse_slot s) <-> slot_text s.
Proof.
  unfold parse_slot, slot_text. destruct s as [|c s0]; [split; [by intros []|by intros []]|]. set (s := String c s0).
  destruct (read_digits digit_val 10 0 s) as [x|] eqn:Hr.
  - assert (Forall dec_digit (list_ascii_of_string s)) as Hf.
    { eapply Forall_impl; [|intros ?; apply digit_iff]. apply (read_some digit_val 10 s 0). by eexists. }
    pose proof (read_value _ _ _ Hr) as Hv. unfold decimal_value. rewrite <- Hv. destruct (N.ltb_spec x two64) as [Hx|Hx].
    + split; [intros _; done|by eexists].
    + split; [by intros []|]. intros (_ & _ & ?). lia.
  - split; [by intros []|]. intros (_ & Hf & _). exfalso.
    assert (is_Some (read_digits digit_val 10 0 s)) as []; [|congruence].
    apply read_some. eapply Forall_impl; [exact Hf|]. intros ?. apply digit_iff.
Qed.
Lemma root_form s : is_Some (parse_root s) <-> String.length s = 64%nat /\ Forall hex_digit (list_ascii_of_string s).
Proof.
  unfold parse_root. destruct (Nat.eqb_spec (String.length s) 64) as [Hl|Hl].
  - rewrite read_some. split; [intros H; split; [done|]|intros [_ H]]; (eapply Forall_impl; [exact H|intros ?; apply hex_iff]).
  - split; [by intros []|by intros []].
Qed.
Lemma slot_not_root s t : slot_text s -> s <> ("0x" ++ t)%string.
Proof.
  intros (_ & Hf & _) ->. change (Forall dec_digit ("0"%char :: "x"%char :: list_ascii_of_string t)) in Hf. rewrite !Forall_cons in Hf.
  destruct Hf as (_ & Hx & _). apply digit_iff in Hx as []. done.
Qed.

Section Served.
  Context (E : Env) (gt : N) (vals : list Validator).
  Context (Hgood : good_hash (e_header E)) (Hvals : lenN vals <= VALIDATOR_REGISTRY_LIMIT).
  Notation hs := (e_state E).
  Notation hh := (e_header E).
  Notation hb := (e_body E).
  Notation root_ := (block_root hh hb).
  Notation reach := (reachable E gt vals).

  (** *** Range requests *)
  Lemma from_length n s t : (length (blocks_from hb n s t) <= n)%nat.
  Proof using.
    clear. revert s. induction n as [|n IH]; intros s; cbn; [done|]. pose proof (IH (s + 1)).
    destruct (t_roots t !! s); [|lia]. destruct (get_signed_block hb t _); cbn; lia.
  Qed.
  Lemma sorted_omap t L P `{forall x, Decision (P x)} : StronglySorted (fun a b => slot_of t a < slot_of t b) L ->
    StronglySorted N.lt (map (fun sb => b_slot (sb_block sb)) (omap (get_signed_block hb t) (filter P L))).
  Proof using.
    clear. induction 1 as [|x L HL IH Hall]; [constructor|]. rewrite filter_cons. destruct (decide (P x)); [|done].
    cbn [omap list_omap]. destruct (get_signed_block hb t x) as [sb|] eqn:Hg; [|done]. cbn [map]. constructor; [done|].
    apply Forall_forall. intros y Hy. apply elem_of_map in Hy as (sb' & -> & Hin).
    apply elem_of_list_omap in Hin as (z & Hz & Hg'). apply elem_of_list_filter in Hz as [_ Hz].
    rewrite (signed_slot E _ _ _ Hg), (signed_slot E _ _ _ Hg'). rewrite Forall_forall in Hall. by apply Hall.
  Qed.
  Lemma range_served n start count : reach n -> 0 < count <= 1024 -> start + count <= two64 ->
    exists l, handle_blocks_by_range E n start count = RBlocks l /\
      lenN l <= count /\
      StronglySorted N.lt (map (fun sb => b_slot (sb_block sb)) l) /\
      forall sb, sb ∈ l <-> exists r, ancestor (tab n) r (db_head (nd_db n)) /\
        get_signed_block hb (tab n) r = Some sb /\ start <= b_slot (sb_block sb) < start + count.
  Proof.
    intros Hr Hc Hs. destruct (head_facts E gt vals Hgood Hvals _ Hr) as (A & As & w & s & l & [Hi _] & _ & _ & Hp & Hd & Hanc & _).
    pose proof (di_index _ _ _ _ _ _ _ Hi) as Hix.
    unfold handle_blocks_by_range, canonical_blocks_by_range.
    rewrite (proj2 (N.eqb_neq count 0)) by lia. rewrite (proj2 (N.ltb_ge MAX_REQUEST_BLOCKS count)) by (unfold MAX_REQUEST_BLOCKS; lia).
    rewrite (proj2 (N.leb_gt two64 (start + (count - 1)))) by lia. cbn [orb].
    eexists. split; [reflexivity|]. split.
    { unfold get_signed_blocks_by_slot_range, lenN. pose proof (from_length (N.to_nat (start + (count - 1) + 1 - start)) start (tab n)). lia. }
    rewrite (C21_range_pf hb (tab n) A (db_head (nd_db n)) l) by done. split.
    { apply sorted_omap. by eapply path_sorted. }
    intros sb. rewrite elem_of_list_omap. split.
    - intros (r & Hin & Hg). apply elem_of_list_filter in Hin as [Hsl Hin]. rewrite elem_of_reverse in Hin.
      exists r. rewrite (signed_slot E _ _ _ Hg). split_and!; [by apply Hanc|done|lia|lia].
    - intros (r & Ha & Hg & Hsl). exists r. split; [|done]. apply elem_of_list_filter.
      rewrite (signed_slot E _ _ _ Hg) in Hsl. rewrite elem_of_reverse. split; [lia|by apply Hanc].
  Qed.
  Lemma range_refused n start count : handle_blocks_by_range E n start count = RInvalid <-> count = 0 \/ 1024 < count.
  Proof using.
    clear. unfold handle_blocks_by_range, MAX_REQUEST_BLOCKS. destruct (N.eqb_spec count 0) as [->|Hz]; cbn [orb].
    - split; [by left|done].
    - destruct (N.ltb_spec 1024 count) as [H|H]; (split; [intros H'|intros H']); try done; [by right|destruct H'; lia].
  Qed.
  Lemma found_omap n roots : found_blocks E n roots = omap (get_signed_block hb (tab n)) roots.
  Proof using. clear. induction roots as [|r roots IH]; [done|]. cbn. rewrite IH. by destruct (get_signed_block hb (tab n) r). Qed.
  Lemma root_served n roots : reach n -> exists l, handle_blocks_by_root E n roots = RBlocks l /\
    map (fun sb => root_ (sb_block sb)) l = filter (fun r => is_Some (get_signed_block hb (tab n) r)) roots /\
    forall sb, sb ∈ l -> get_signed_block hb (tab n) (root_ (sb_block sb)) = Some sb.
  Proof.
    intros Hr. eexists. split; [reflexivity|]. rewrite found_omap. split.
    - induction roots as [|r roots IH]; [done|]. rewrite filter_cons. cbn [omap list_omap].
      destruct (get_signed_block hb (tab n) r) as [sb|] eqn:Hg.
      + rewrite decide_True by (by eexists). cbn [map]. rewrite (served_root E gt vals Hgood Hvals _ _ _ Hr Hg). f_equal. exact IH.
      + rewrite decide_False by (by intros []). exact IH.
    - intros sb Hin. apply elem_of_list_omap in Hin as (r & _ & Hg). by rewrite (served_root E gt vals Hgood Hvals _ _ _ Hr Hg).
  Qed.
  (** Recent blocks are there. *)
  Lemma recent_served a n0 es n r h : valid_anchor E gt vals a -> started E a n0 -> node_run E n0 es n ->
    t_headers (tab n) !! r = Some h -> r <> db_head (nd_db n0) -> db_time (nd_db n) / 5 < h_slot h + 21600 ->
    exists sb, get_signed_block hb (tab n) r = Some sb.
  Proof.
    intros Ha Hst Hr Hh Hne Hrec. destruct (run_served E gt vals Hgood Hvals _ _ _ _ Ha Hst Hr) as [(w & Hn & [_ Hk]) _].
    destruct (get_signed_block hb (tab n) r) as [sb|] eqn:Hg; [by exists sb|]. exfalso.
    destruct (Hk _ _ Hh Hg) as [->|?]; [done|lia].
  Qed.

  (** *** Lookups by slot *)
  Lemma read_slot t r b : get_block hb t r = Some b -> exists h, t_headers t !! r = Some h /\ b_slot b = h_slot h.
  Proof using.
    clear. unfold get_block. destruct (t_headers t !! r) as [h|]; [|done]. intros H. exists h. split; [done|].
    destruct (_ =? _); [by injection H as <-|]. destruct (t_bodies t !! r); [by injection H as <-|done].
  Qed.
  Lemma getN_root s i : getN (s_hist s) i = root_at s i.
  Proof using. clear. apply getN_lookup. Qed.
  Lemma slot_lookup n i : reach n -> i < two64 ->
    exists s, head_state n = Ok s /\ has_slot (tab n) (db_head (nd_db n)) (s_slot s) /\
      (i <> s_slot s ->
       exists x, resolve_block_id n (slot_id i) = Ok x /\ x <> HInvalid /\
         forall r h, t_headers (tab n) !! r = Some h ->
           (x = HOk r <-> ancestor (tab n) r (db_head (nd_db n)) /\ h_slot h = i)).
  Proof.
    intros Hr Hi. destruct (head_facts E gt vals Hgood Hvals _ Hr) as (A & As & w & s & l & [Hdb _] & Hw & Hst & Hp & Hd & Hanc & Hra).
    exists s. split; [done|]. destruct (w_header _ _ _ _ _ _ _ _ _ Hdb Hw) as (Hh & Hsl & _). split.
    { exists (s_header s). split; [exact Hh|]. by rewrite Hsl. }
    intros Hne. pose proof (parse_pretty i Hi) as Hpp. unfold resolve_block_id. rewrite (digits_no_prefix _ _ Hpp), Hpp.
    unfold resolve_slot. rewrite Hst. cbn [rbind]. rewrite getN_root.
    assert (forall r h, t_headers (tab n) !! r = Some h -> r <> ZERO) as Hnz.
    { intros r h Hrh. rewrite <- (si_hash _ _ _ _ _ (di_st _ _ _ _ _ _ _ Hdb) _ _ Hrh). apply Hgood. }
    destruct (root_at s i) as [x|] eqn:Hx; [destruct (N.eqb_spec x ZERO) as [->|Hxz]|].
    - eexists. split; [reflexivity|]. split; [done|]. intros r h Hrh. split; [done|]. intros [Ha Hs].
      apply Hanc in Ha. assert (root_at s i = Some r) as H by (by eapply Hra). rewrite Hx in H. injection H as <-. by apply Hnz in Hrh.
    - eexists. split; [reflexivity|]. split; [done|]. intros r h Hrh. split.
      + intros [= ->]. rewrite Hanc. by apply (Hra r h).
      + rewrite Hanc. intros H. apply (Hra r h) in H; [|done|done]. rewrite Hx in H. by injection H as ->.
    - eexists. split; [reflexivity|]. split; [done|]. intros r h Hrh. split; [done|]. rewrite Hanc. intros H.
      apply (Hra r h) in H; [|done|done]. by rewrite Hx in H.
  Qed.

  Lemma block_by_slot n i sl : reach n -> i < two64 -> has_slot (tab n) (db_head (nd_db n)) sl -> i <> sl ->
    exists x, http_get_block E n (slot_id i) = Ok x /\ x <> HInvalid /\
      forall b, x = HOk b <-> exists r, ancestor (tab n) r (db_head (nd_db n)) /\ has_slot (tab n) r i /\
        get_block hb (tab n) r = Some b.
  Proof.
    intros Hr Hi (h0 & Hh0 & <-) Hne. destruct (slot_lookup _ _ Hr Hi) as (s & Hs & (h1 & Hh1 & Hs1) & Hl).
    rewrite Hh0 in Hh1. injection Hh1 as <-. destruct Hl as (x & Hx & Hnx & Hx'); [congruence|].
    unfold http_get_block. rewrite Hx. cbn [rbind].
    assert (forall r b, get_block hb (tab n) r = Some b -> exists h, t_headers (tab n) !! r = Some h) as Hgh.
    { intros r b Hb. destruct (read_slot _ _ _ Hb) as (h & ? & _). by exists h. }
    destruct x as [r| |].
    - eexists. split; [reflexivity|]. split; [by destruct (get_block _ _ _)|]. intros b. split.
      + intros Hb. destruct (get_block hb (tab n) r) as [b'|] eqn:Hg; [|done]. injection Hb as ->.
        exists r. destruct (Hgh _ _ Hg) as (h & Hh). destruct (proj1 (Hx' r h Hh) eq_refl) as [Ha Hsl].
        split_and!; [done|by exists h|done].
      + intros (r' & Ha & (h & Hh & Hsl) & Hg). pose proof (proj2 (Hx' r' h Hh) (conj Ha Hsl)) as [= ->]. by rewrite Hg.
    - done.
    - eexists. split; [reflexivity|]. split; [done|]. intros b. split; [done|].
      intros (r' & Ha & (h & Hh & Hsl) & Hg). by pose proof (proj2 (Hx' r' h Hh) (conj Ha Hsl)).
  Qed.
  Lemma header_by_slot n i sl : reach n -> i < two64 -> has_slot (tab n) (db_head (nd_db n)) sl -> i <> sl ->
    exists x, http_get_block_header n (slot_id i) = Ok x /\ x <> HInvalid /\
      forall h, x = HOk h <-> exists r, ancestor (tab n) r (db_head (nd_db n)) /\ t_headers (tab n) !! r = Some h /\ h_slot h = i.
  Proof.
    intros Hr Hi (h0 & Hh0 & <-) Hne. destruct (slot_lookup _ _ Hr Hi) as (s & Hs & (h1 & Hh1 & Hs1) & Hl).
    rewrite Hh0 in Hh1. injection Hh1 as <-. destruct Hl as (x & Hx & Hnx & Hx'); [congruence|].
    unfold http_get_block_header. rewrite Hx. cbn [rbind]. destruct x as [r| |].
    - eexists. split; [reflexivity|]. split; [by destruct (get_header _ _)|]. intros h. split.
      + intros Hb. destruct (get_header (tab n) r) as [h'|] eqn:Hg; [|done]. injection Hb as ->.
        exists r. destruct (proj1 (Hx' r h Hg) eq_refl) as [Ha Hsl]. done.
      + intros (r' & Ha & Hh & Hsl). pose proof (proj2 (Hx' r' h Hh) (conj Ha Hsl)) as [= ->]. unfold get_header. by rewrite Hh.
    - done.
    - eexists. split; [reflexivity|]. split; [done|]. intros h. split; [done|].
      intros (r' & Ha & Hh & Hsl). by pose proof (proj2 (Hx' r' h Hh) (conj Ha Hsl)).
  Qed.
  Lemma id_invalid n id : reach n -> exists x, resolve_block_id n id = Ok x /\ (x = HInvalid <-> ~ root_text id /\ ~ slot_text id).
  Proof.
    intros Hr. unfold resolve_block_id. destruct (str_strip "0x" id) as [t|] eqn:Ht.
    - apply strip_app in Ht. eexists. split; [reflexivity|]. destruct (parse_root t) as [r|] eqn:Hp.
      + split; [done|]. intros [[] _]. exists t. split; [done|]. apply root_form. by eexists.
      + split; [intros _|done]. split.
        * intros (t' & Ht' & H). rewrite Ht in Ht'. injection Ht' as <-. apply root_form in H as []. congruence.
        * intros H. by apply (slot_not_root _ t H).
    - assert (~ root_text id) as Hn. { intros (t & Ht' & _). apply (strip_app "0x") in Ht'. congruence. }
      destruct (parse_slot id) as [i|] eqn:Hp.
      + destruct (head_facts E gt vals Hgood Hvals _ Hr) as (A & As & w & s & l & _ & _ & Hst & _).
        unfold resolve_slot. rewrite Hst. cbn [rbind].
        assert (slot_text id) as Hs by (apply slot_form; by eexists).
        destruct (getN (s_hist s) i) as [x|]; [destruct (x =? ZERO)|]; (eexists; split; [reflexivity|]; split; [done|by intros [_ []]]).
      + eexists. split; [reflexivity|]. split; [intros _|done]. split; [done|]. intros H. apply slot_form in H as []. congruence.
  Qed.
  Lemma ids_invalid n id : reach n ->
    (http_get_block E n id = Ok HInvalid <-> ~ root_text id /\ ~ slot_text id) /\
    (http_get_block_header n id = Ok HInvalid <-> ~ root_text id /\ ~ slot_text id).
  Proof.
    intros Hr. destruct (id_invalid n id Hr) as (x & Hx & <-). unfold http_get_block, http_get_block_header. rewrite Hx. cbn [rbind].
    destruct x as [r| |]; [destruct (get_block hb (tab n) r), (get_header (tab n) r)|..]; split; split; intros H; done || by injection H.
  Qed.
  Lemma resolve_root n r : r < 2 ^ 256 -> resolve_block_id n (root_id r) = Ok (HOk r).
  Proof using. clear. intros H. destruct (parse_hex r H) as [H1 H2]. unfold resolve_block_id. by rewrite H1, H2. Qed.
  Lemma block_by_root n r : reach n -> r < 2 ^ 256 ->
    exists x, http_get_block E n (root_id r) = Ok x /\
      (x = HNotFound /\ get_block hb (tab n) r = None \/
       exists b, x = HOk b /\ root_ b = r /\ get_block hb (tab n) r = Some b).
  Proof.
    intros Hr Hx. unfold http_get_block. rewrite resolve_root by done. cbn [rbind]. eexists. split; [reflexivity|].
    destruct (get_block hb (tab n) r) as [b|] eqn:Hg; [right|by left]. exists b. split; [done|]. split; [|done].
    by eapply read_root.
  Qed.
  Lemma header_by_root n r : reach n -> r < 2 ^ 256 ->
    exists x, http_get_block_header n (root_id r) = Ok x /\
      (x = HNotFound /\ t_headers (tab n) !! r = None \/
       exists h, x = HOk h /\ hh h = r /\ t_headers (tab n) !! r = Some h).
  Proof.
    intros Hr Hx. unfold http_get_block_header. rewrite resolve_root by done. cbn [rbind]. eexists. split; [reflexivity|].
    unfold get_header. destruct (t_headers (tab n) !! r) as [h|] eqn:Hg; [right|by left]. exists h. split; [done|]. split; [|done].
    destruct (reachable_inv E gt vals Hgood Hvals _ Hr) as (A & As & w & [Hi _] & _).
    by apply (si_hash _ _ _ _ _ (di_st _ _ _ _ _ _ _ Hi)).
  Qed.

  (** *** Status, genesis, fork choice *)
  Lemma status_ok n : reach n -> exists fin hd, build_status n = Ok (mkStatus fin hd) /\
    fin = db_fin (nd_db n) /\ cp_root hd = db_head (nd_db n) /\ has_slot (tab n) (cp_root hd) (cp_slot hd) /\
    has_slot (tab n) (cp_root fin) (cp_slot fin) /\ cp_slot fin <= cp_slot hd.
  Proof.
    intros Hr. pose proof Hr as (a & n0 & es & Ha & Hst & Hrun).
    destruct (reachable_inv E gt vals Hgood Hvals _ Hr) as (A & As & w & [Hi _] & _).
    destruct (di_head _ _ _ _ _ _ _ Hi) as [s Hw]. destruct (w_header _ _ _ _ _ _ _ _ _ Hi Hw) as (Hh & Hsl & _).
    destruct (di_fin _ _ _ _ _ _ _ Hi) as (f & Hwf & Hfs). destruct (w_header _ _ _ _ _ _ _ _ _ Hi Hwf) as (Hhf & Hslf & _).
    destruct (C29_invariant_pf E gt vals Hgood Hvals _ _ _ _ _ _ Ha Hst Hrun (nr_nil _ _)) as (_ & _ & _ & (p & Hj) & Hd & _).
    assert (cp_slot (db_just (nd_db n)) <= s_slot s) as Hle.
    { destruct (descends_in _ _ _ Hd) as [[[sh ph] Hlh] _].
      destruct (descends_slot _ _ _ _ _ _ _ (live_decreasing E gt vals Hgood Hvals _ _ _ _ Hi) Hd Hlh Hj) as [Hle _].
      destruct (live_w E gt vals _ _ _ _ _ _ _ Hi Hlh) as (s' & Hw' & -> & _). rewrite Hw in Hw'. injection Hw' as <-. done. }
    pose proof (di_fin_just _ _ _ _ _ _ _ Hi) as Hfj.
    unfold build_status, slot_of_root, get_header. fold (tab n) in Hh, Hhf. rewrite Hh. cbn [rbind]. eexists _, _. split; [reflexivity|].
    cbn [cp_root cp_slot]. split_and!; [done|done| | |].
    - exists (s_header s). done.
    - exists (s_header f). split; [done|lia].
    - lia.
  Qed.
  Lemma anchor_gt a : valid_anchor E gt vals a -> s_genesis_time a = gt.
  Proof using.
    clear Hgood Hvals. intros (raw & bs & Hc & Ha). pose proof (cf_gt _ _ _ _ _ _ _ (chain_has_facts _ _ _ _ _ _ _ Hc)) as Hg.
    by destruct Ha as [->| ->].
  Qed.
  Lemma started_gt a n0 : valid_anchor E gt vals a -> started E a n0 -> db_gt (nd_db n0) = gt.
  Proof.
    intros Ha (d & Hn0). rewrite <- (anchor_gt _ Ha).
    assert (exists body, init_store hs hh empty_tables a body = Ok d /\ db_gt (nd_db n0) = db_gt d) as (body & Hd & ->).
    { destruct Hn0 as [[Hd ->]|(sb & Hg & Hn)].
      - by exists None.
      - exists (Some (b_atts (sb_block sb))). split.
        + unfold get_forkchoice_store in Hg. by destruct (anchor_pair_is_consistent _ _ _ _) in Hg.
        + by destruct Hn as [-> | ->]. }
    by destruct (db_inv_init E gt vals Hgood Hvals _ _ _ Ha Hd) as (_ & _ & _ & _ & _ & ?).
  Qed.
  Lemma reach_gt n : reach n -> db_gt (nd_db n) = gt.
  Proof.
    intros (a & n0 & es & Ha & Hst & Hr). rewrite <- (started_gt _ _ Ha Hst).
    destruct (started_facts E gt vals Hgood Hvals _ _ Ha Hst) as (Hn & _).
    destruct (run_inv E gt vals Hgood Hvals _ _ _ _ _ _ Hn Hr) as (w' & Hs). apply (so_gt _ _ _ _ _ _ _ _ _ Hs).
  Qed.
  Lemma head_state_vals n : reach n -> exists s, head_state n = Ok s /\ s_validators s = vals.
  Proof.
    intros Hr. destruct (head_facts E gt vals Hgood Hvals _ Hr) as (A & As & w & s & l & [Hi _] & Hw & Hs & _).
    exists s. split; [done|]. destruct (w_chain_facts _ _ _ Hgood _ _ _ _ _ _ Hi Hw) as (_ & _ & _ & ? & _). done.
  Qed.
  Lemma genesis_ok n : reach n -> http_get_genesis n = Ok (gt, lenN vals).
  Proof.
    intros Hr. destruct (head_state_vals _ Hr) as (s & Hs & Hv). unfold http_get_genesis. rewrite Hs. cbn [rbind].
    by rewrite Hv, (reach_gt _ Hr).
  Qed.
  Lemma fork_choice_ok n : reach n -> exists R, http_get_fork_choice n = Ok R /\
    fcr_head R = db_head (nd_db n) /\ fcr_safe R = db_safe (nd_db n) /\
    fcr_justified R = db_just (nd_db n) /\ fcr_finalized R = db_fin (nd_db n) /\ fcr_validators R = lenN vals /\
    NoDup (map fcn_root (fcr_nodes R)) /\
    (forall r, r ∈ map fcn_root (fcr_nodes R) <-> is_Some (live_chain (tab n) !! r)) /\
    forall x, x ∈ fcr_nodes R -> exists h, t_headers (tab n) !! fcn_root x = Some h /\
      fcn_slot x = h_slot h /\ fcn_parent x = h_parent h /\ fcn_proposer x = h_proposer h /\
      (if h_slot h <=? cp_slot (db_fin (nd_db n)) then fcn_weight x = 0
       else counts (fcn_weight x) (votes_for_subtree (live_chain (tab n)) (fc_known (nd_votes n)) (fcn_root x))).
  Proof.
    intros Hr. destruct (reachable_inv E gt vals Hgood Hvals _ Hr) as (A & As & w & [Hi _] & _).
    pose proof (live_decreasing E gt vals Hgood Hvals _ _ _ _ Hi) as Hdec. fold (tab n) in Hdec.
    destruct (head_state_vals _ Hr) as (s & Hs & Hv). set (m := live_chain (tab n)) in *.
    assert ((list_to_map (map_to_list m) : BlockTree) = m) as Hm by (apply list_to_map_to_list).
    destruct (C16_weights_terminate_pf (cp_slot (db_fin (nd_db n))) (map_to_list m) (known_votes n)) as (W & HW); [by rewrite Hm|].
    unfold http_get_fork_choice. fold m. rewrite HW, Hs. cbn [rbind]. eexists. split; [reflexivity|].
    cbn [fcr_head fcr_safe fcr_justified fcr_finalized fcr_validators fcr_nodes]. rewrite Hv.
    rewrite map_map. cbn [fcn_root]. split_and!; try done.
    - apply NoDup_fst_map_to_list.
    - intros r. rewrite elem_of_map. split.
      + intros ([r' y] & -> & Hin). apply elem_of_map_to_list in Hin. cbn. by exists y.
      + intros [y Hy]. exists (r, y). split; [done|]. by apply elem_of_map_to_list.
    - intros x Hx. apply elem_of_map in Hx as ([r [sl p]] & -> & Hin). apply elem_of_map_to_list in Hin.
      cbn [fcn_root fcn_slot fcn_parent fcn_proposer fcn_weight fst snd].
      destruct (live_w E gt vals _ _ _ _ _ _ _ Hi Hin) as (st & Hw & -> & ->).
      destruct (w_header _ _ _ _ _ _ _ _ _ Hi Hw) as (Hh & Hsl & _). fold (tab n) in Hh. exists (s_header st).
      unfold get_header. rewrite Hh. split_and!; try done. rewrite <- Hsl. destruct (N.leb_spec (s_slot st) (cp_slot (db_fin (nd_db n)))) as [Hle|Hlt].
      + rewrite (weights_low _ _ _ _ r) with (2 := HW); [done|by rewrite Hm|]. rewrite Hm. intros s1 p1 H1.
        rewrite Hin in H1. injection H1 as <- <-. done.
      + pose proof (C16_weight_is_subtree_votes_pf _ _ _ _ r (s_slot st) (h_parent (s_header st)) (NoDup_fst_map_to_list (fc_known (nd_votes n)))
          ltac:(by rewrite Hm) HW ltac:(by rewrite Hm) Hlt) as Hc.
        unfold known_votes in *. by rewrite Hm, list_to_map_to_list in Hc.
  Qed.
End Served.
