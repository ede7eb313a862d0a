(** Proofs about the wire encoding. *)
From Verif Require Export WireSpec Lib.

(** ** Bits *)
Lemma land127 n : N.land n 127 = n mod 128.
Proof. change 127 with (N.ones 7). by rewrite N.land_ones. Qed.
Lemma shiftr7 n : N.shiftr n 7 = n / 128.
Proof. by rewrite N.shiftr_div_pow2. Qed.
Lemma lor_add a b k : a < 2 ^ k -> N.lor a (b * 2 ^ k) = a + b * 2 ^ k.
Proof.
  intros Ha. assert (N.land a (b * 2 ^ k) = 0) as Hl.
  { apply N.bits_inj. intros i. rewrite N.land_spec, N.bits_0.
    destruct (N.ltb_spec i k) as [Hi|Hi].
    - rewrite N.mul_pow2_bits_low by done. apply andb_false_r.
    - rewrite <- (N.mod_small a (2 ^ k)) by done. by rewrite N.mod_pow2_bits_high. }
  rewrite <- N.lxor_lor by done. by rewrite <- N.add_nocarry_lxor.
Qed.
Lemma lor128 a : a < 128 -> N.lor a 128 = a + 128.
Proof. intros Ha. apply (lor_add a 1 7). done. Qed.
Lemma land128 b : b < 256 -> N.land b 128 = if b <? 128 then 0 else 128.
Proof.
  intros Hb. assert (forallb (fun x => N.land x 128 =? if x <? 128 then 0 else 128)
    (map N.of_nat (seq 0 256)) = true) as H by (vm_compute; reflexivity).
  rewrite forallb_forall in H. apply N.eqb_eq, H. apply in_map_iff. exists (N.to_nat b).
  split; [lia|]. apply in_seq. lia.
Qed.
Lemma cont_bit b : b < 256 -> (N.land b 128 =? 0) = (b <? 128).
Proof. intros Hb. rewrite land128 by done. by destruct (b <? 128). Qed.

(** ** Varints *)
Lemma encode_loop_S n v :
  encode_loop (S n) v = if v / 128 =? 0 then [v mod 128] else (v mod 128 + 128) :: encode_loop n (v / 128).
Proof.
  cbn [encode_loop]. rewrite land127, shiftr7, lor128; [done|]. apply N.mod_lt. done.
Qed.

Lemma encode_loop_ok n v : bytes_ok (encode_loop n v).
Proof.
  revert v. induction n as [|n IH]; intros v; [constructor|]. rewrite encode_loop_S.
  destruct (_ =? 0); constructor; try apply IH; try constructor; lia.
Qed.
Lemma encode_loop_length n v : (length (encode_loop n v) <= n)%nat.
Proof.
  revert v. induction n as [|n IH]; intros v; [cbn; lia|]. rewrite encode_loop_S.
  destruct (_ =? 0); cbn [length]; [lia|]. specialize (IH (v / 128)). lia.
Qed.

(** One step of decoding as arithmetic. *)
Lemma decode_loop_cons i acc b rest :
  7 * i < 32 -> acc < 2 ^ (7 * i) -> b < 256 -> (b mod 128) * 2 ^ (7 * i) < two32 ->
  decode_loop i acc (b :: rest) =
  if b <? 128 then Ok (acc + b * 2 ^ (7 * i), rest)
  else decode_loop (i + 1) (acc + (b mod 128) * 2 ^ (7 * i)) rest.
Proof.
  intros Hi Ha Hb Hs. cbn [decode_loop]. destruct (N.leb_spec 32 (7 * i)); [lia|].
  rewrite cont_bit by done. rewrite land127, N.shiftl_mul_pow2, N.mod_small by done.
  rewrite lor_add by done. destruct (N.ltb_spec b 128); [|done].
  by rewrite N.mod_small.
Qed.

Lemma decode_encode_loop n i acc v rest :
  N.of_nat n + i = 5 -> acc < 2 ^ (7 * i) -> acc + v * 2 ^ (7 * i) < two32 ->
  (n = O -> v = 0) -> (1 <= n)%nat ->
  decode_loop i acc (encode_loop n v ++ rest) = Ok (acc + v * 2 ^ (7 * i), rest).
Proof.
  revert i acc v. induction n as [|n IH]; intros i acc v Hn Ha Hv Hz H1; [lia|].
  rewrite encode_loop_S. set (P := 2 ^ (7 * i)) in *.
  assert (0 < P) as HP by (apply N.neq_0_lt_0, N.pow_nonzero; done).
  destruct (N.eqb_spec (v / 128) 0) as [E|E].
  - assert (v < 128) as Hlt by lia. rewrite (N.mod_small v 128) by lia.
    cbn [app]. rewrite decode_loop_cons; [|lia|done|lia|].
    + destruct (N.ltb_spec v 128); [done|lia].
    + rewrite N.mod_small by lia. fold P. lia.
  - cbn [app]. rewrite decode_loop_cons; [|lia|done|lia|].
    + destruct (N.ltb_spec (v mod 128 + 128) 128); [lia|].
      assert ((v mod 128 + 128) mod 128 = v mod 128) as -> by lia. fold P.
      assert (2 ^ (7 * (i + 1)) = 128 * P) as HP'.
      { replace (7 * (i + 1)) with (7 * i + 7) by lia. rewrite N.pow_add_r. fold P. change (2 ^ 7) with 128. lia. }
      assert (v = 128 * (v / 128) + v mod 128) as Hdm by (apply N.div_mod; done).
      destruct n as [|n].
      * exfalso. assert (i = 4) as -> by lia. subst P. change (2 ^ (7 * 4)) with 268435456 in *.
        unfold two32 in Hv. lia.
      * rewrite IH; [| lia | rewrite HP'; nia | rewrite HP'; nia | done | lia].
        f_equal. f_equal. rewrite HP'. nia.
    + assert ((v mod 128 + 128) mod 128 = v mod 128) as -> by lia. fold P.
      assert (v mod 128 <= v) by (apply N.mod_le; done). nia.
Qed.

Lemma varint_roundtrip v rest :
  v < two32 -> decode_varint (encode_varint v ++ rest) = Ok (v, rest).
Proof.
  intros Hv. unfold decode_varint, encode_varint.
  rewrite decode_encode_loop; [| done | done | | done | lia].
  - f_equal. f_equal. change (2 ^ (7 * 0)) with 1. lia.
  - change (2 ^ (7 * 0)) with 1. lia.
Qed.

Lemma varint_prefix_free v v' r r' :
  v < two32 -> v' < two32 -> encode_varint v ++ r = encode_varint v' ++ r' -> v = v' /\ r = r'.
Proof.
  intros Hv Hv' Heq. pose proof (varint_roundtrip v r Hv) as H. rewrite Heq, varint_roundtrip in H by done.
  injection H as -> ->. done.
Qed.

Lemma varint_length v : (1 <= length (encode_varint v) <= 5)%nat.
Proof.
  split; [|apply encode_loop_length]. unfold encode_varint. rewrite encode_loop_S.
  destruct (_ =? 0); cbn [length]; lia.
Qed.

(** Encodings: all bytes but the last have the continuation bit. *)
Lemma read_loop_encode k n buf v s :
  (n <= k)%nat -> (1 <= n)%nat -> v < 128 ^ N.of_nat n ->
  read_varint_loop k buf (encode_loop n v ++ s) =
  let! vr := decode_varint (buf ++ encode_loop n v) in Ok (vr.1, s).
Proof.
  revert k buf v. induction n as [|n IH]; intros k buf v Hk H1 Hv; [lia|].
  destruct k as [|k]; [lia|]. rewrite encode_loop_S.
  destruct (N.eqb_spec (v / 128) 0) as [E|E]; cbn [app read_varint_loop].
  - rewrite cont_bit by lia. destruct (N.ltb_spec (v mod 128) 128); [done|lia].
  - rewrite cont_bit by lia. destruct (N.ltb_spec (v mod 128 + 128) 128); [lia|].
    destruct n as [|n].
    + exfalso. change (128 ^ N.of_nat 1) with 128 in Hv. lia.
    + rewrite IH; [by rewrite <- app_assoc|lia|lia|].
      rewrite Nat2N.inj_succ, N.pow_succ_r' in Hv. apply N.div_lt_upper_bound; lia.
Qed.

Lemma read_varint_roundtrip v s :
  v < two32 -> read_varint (encode_varint v ++ s) = Ok (v, s).
Proof.
  intros Hv. unfold read_varint, encode_varint. rewrite read_loop_encode; [|lia|lia|].
  - cbn [app]. fold (encode_varint v). rewrite <- (app_nil_r (encode_varint v)) at 1.
    by rewrite varint_roundtrip.
  - change (128 ^ N.of_nat 5) with 34359738368. unfold two32 in Hv. lia.
Qed.

(** Decoding consumes a prefix and never needs more than what it reads. *)
Lemma decode_loop_suffix i acc buf v rest :
  decode_loop i acc buf = Ok (v, rest) -> exists pre, buf = pre ++ rest /\ pre <> [].
Proof.
  revert i acc. induction buf as [|b buf IH]; intros i acc; cbn [decode_loop]; [done|].
  destruct (32 <=? 7 * i); [done|]. destruct (_ =? 0).
  - intros [= <- <-]. by exists [b].
  - intros H. apply IH in H as (pre & -> & _). by exists (b :: pre).
Qed.

Lemma decode_encode_canonical n i acc bs v :
  N.of_nat n + i = 5 -> acc < 2 ^ (7 * i) -> bytes_ok bs -> (length bs <= n)%nat ->
  (length bs = n -> default 0 (last bs) < 16) ->
  ((1 < length bs)%nat -> default 0 (last bs) <> 0) ->
  decode_loop i acc bs = Ok (v, []) ->
  exists w, v = acc + w * 2 ^ (7 * i) /\ encode_loop n w = bs /\ (bs <> [0] -> w <> 0).
Proof.
  revert i acc bs. induction n as [|n IH]; intros i acc bs Hn Ha Hok Hlen H5 H1.
  { destruct bs; [|cbn in Hlen; lia]. done. }
  destruct bs as [|b bs]; [done|]. apply Forall_cons in Hok as [Hb Hok].
  set (P := 2 ^ (7 * i)) in *.
  assert (0 < P) as HP by (apply N.neq_0_lt_0, N.pow_nonzero; done).
  assert (2 ^ (7 * (i + 1)) = 128 * P) as HP'.
  { replace (7 * (i + 1)) with (7 * i + 7) by lia. rewrite N.pow_add_r. fold P. change (2 ^ 7) with 128. lia. }
  destruct (decide (b < 128)) as [Hlt|Hge].
  - assert ((b mod 128) * P < two32) as Hs.
    { rewrite N.mod_small by done. destruct n as [|n].
      - destruct bs as [|b' bs]; [|cbn in Hlen; lia].
        specialize (H5 eq_refl). cbn in H5. assert (i = 4) as -> by lia.
        subst P. change (2 ^ (7 * 4)) with 268435456. unfold two32. lia.
      - assert (P <= 2 ^ 21). { apply N.pow_le_mono_r; lia. }
        change (2 ^ 21) with 2097152 in *. unfold two32. nia. }
    rewrite decode_loop_cons; [|lia|done|done|done].
    destruct (N.ltb_spec b 128); [|lia]. intros [= <- ->].
    exists b. split; [done|]. rewrite encode_loop_S. split; [|intros Hne ->; done].
    destruct (N.eqb_spec (b / 128) 0) as [_|]; [|lia]. by rewrite N.mod_small.
  - destruct n as [|n].
    { destruct bs as [|b' bs]; [|cbn in Hlen; lia]. specialize (H5 eq_refl). cbn in H5. lia. }
    assert ((b mod 128) * P < two32) as Hs.
    { assert (P <= 2 ^ 21). { apply N.pow_le_mono_r; lia. }
      change (2 ^ 21) with 2097152 in *. unfold two32. assert (b mod 128 < 128) by lia. nia. }
    rewrite decode_loop_cons; [|lia|done|done|done].
    destruct (N.ltb_spec b 128); [lia|]. fold P. intros Hdec.
    destruct bs as [|b2 bs]; [done|].
    assert (default 0 (last (b2 :: bs)) = default 0 (last (b :: b2 :: bs))) as Hlast by done.
    apply IH in Hdec as (w & -> & Hw & Hwz); [|lia|rewrite HP'; assert (b mod 128 < 128) by lia; nia|done|cbn in Hlen |- *; lia| |].
    + assert (w <> 0) as Hnz.
      { apply Hwz. intros [= -> ->]. cbn in H1. apply H1; [lia|done]. }
      exists (b mod 128 + 128 * w). split; [rewrite HP'; nia|].
      rewrite encode_loop_S.
      assert ((b mod 128 + 128 * w) / 128 = w) as -> by lia.
      assert ((b mod 128 + 128 * w) mod 128 = b mod 128) as -> by lia.
      destruct (N.eqb_spec w 0); [done|]. rewrite Hw. split; [f_equal; lia|lia].
    + intros Hl. apply H5. cbn [length] in Hl |- *. lia.
    + intros _. rewrite Hlast. apply H1. cbn. lia.
Qed.

Lemma varint_canonical bs v :
  bytes_ok bs -> no_waste bs -> decode_varint bs = Ok (v, []) -> bs = encode_varint v.
Proof.
  intros Hok (H1 & H2 & H3) Hd.
  destruct (decode_encode_canonical 5 0 0 bs v) as (w & -> & <- & _); try done.
  unfold encode_varint. f_equal. change (2 ^ (7 * 0)) with 1. lia.
Qed.

(** ** Frames *)
Lemma read_exact_app n a s : lenN a = n -> read_exact n (a ++ s) = Ok (a, s).
Proof.
  intros <-. unfold read_exact, lenN. rewrite app_length.
  destruct (N.leb_spec (N.of_nat (length a)) (N.of_nat (length a + length s))); [|lia].
  rewrite Nat2N.id, take_app, drop_app. done.
Qed.
Lemma read_exact_inv n s a r : read_exact n s = Ok (a, r) -> s = a ++ r /\ lenN a = n.
Proof.
  unfold read_exact. destruct (N.leb_spec n (lenN s)); [|done]. intros [= <- <-].
  split; [by rewrite take_drop|]. unfold lenN in *. rewrite take_length. lia.
Qed.
Lemma le24_to n : n < 16777216 -> le24 (n mod 256) ((n / 256) mod 256) ((n / 65536) mod 256) = n.
Proof. intros H. unfold le24. lia. Qed.

Lemma MBS : MAX_BLOCK_SIZE = 65536.
Proof. reflexivity. Qed.
Section SnappyProofs.
  Context (raw_decompress : bytes -> option bytes)
          (raw_len : bytes -> option N) (crc : bytes -> bytes).
  Notation read_chunks := (read_chunks raw_len).
  Notation frame_chunks := (frame_chunks raw_decompress crc).
  Notation frame_decode := (frame_decode raw_decompress crc).
  Notation decode_payload := (decode_payload raw_decompress raw_len crc).
  Notation read_snappy_frame := (read_snappy_frame raw_decompress raw_len crc).

  (** Bounds of the reading loop. *)
  Lemma read_chunks_spec fuel expected frame ulen s frame' s' :
    lenN frame <= MAX_COMPRESSED_PAYLOAD_SIZE ->
    read_chunks fuel expected frame ulen s = Ok (frame', s') ->
    lenN frame' <= MAX_COMPRESSED_PAYLOAD_SIZE /\
    exists mid, frame' = frame ++ mid /\ s = mid ++ s'.
  Proof.
    revert frame ulen s. induction fuel as [|f IH]; intros frame ulen s Hl; cbn [Wire.read_chunks].
    - destruct (ulen <? expected); [done|]. intros [= <- <-]. split; [done|].
      exists []. by rewrite app_nil_r.
    - destruct (ulen <? expected).
      2:{ intros [= <- <-]. split; [done|]. exists []. by rewrite app_nil_r. }
      destruct (read_exact 4 s) as [[h s1]| |] eqn:E1; cbn [rbind]; [|done|done].
      apply read_exact_inv in E1 as [-> Hh].
      destruct h as [|ty [|a [|b [|c [|? ?]]]]]; try done.
      destruct (N.ltb_spec MAX_COMPRESSED_PAYLOAD_SIZE (lenN frame + 4 + le24 a b c)) as [|Hcap]; [done|].
      destruct (read_exact (le24 a b c) s1) as [[d s2]| |] eqn:E2; cbn [rbind]; [|done|done].
      apply read_exact_inv in E2 as [-> Hd].
      destruct (chunk_uncompressed_len raw_len ty d) as [n| |]; cbn [rbind]; [|done|done].
      destruct (expected <? ulen + n); [done|]. intros H.
      apply IH in H as (H1 & mid & -> & ->).
      + split; [done|]. exists ([ty; a; b; c] ++ d ++ mid). by rewrite <- !app_assoc.
      + unfold lenN in *. rewrite !app_length. cbn [length] in *. lia.
  Qed.

  Lemma read_chunks_fuel fuel expected frame ulen s :
    (length s < fuel)%nat -> read_chunks fuel expected frame ulen s <> Err OutOfFuel /\
                             read_chunks fuel expected frame ulen s <> Panic.
  Proof.
    revert frame ulen s. induction fuel as [|f IH]; intros frame ulen s Hf; [lia|]. cbn [Wire.read_chunks].
    destruct (ulen <? expected); [|done].
    destruct (read_exact 4 s) as [[h s1]|e|] eqn:E1; cbn [rbind].
    - apply read_exact_inv in E1 as [-> Hh].
      destruct h as [|ty [|a [|b [|c [|? ?]]]]]; try (unfold lenN in Hh; cbn [length] in Hh; lia).
      destruct (_ <? _); [done|].
      destruct (read_exact (le24 a b c) s1) as [[d s2]|e|] eqn:E2; cbn [rbind].
      + apply read_exact_inv in E2 as [-> Hd].
        destruct (chunk_uncompressed_len raw_len ty d) as [n|e|] eqn:E3; cbn [rbind].
        * destruct (_ <? _); [done|]. apply IH. rewrite !app_length in Hf. cbn [length] in Hf. lia.
        * unfold chunk_uncompressed_len in E3. repeat (case_match; try done); injection E3 as <-; done.
        * unfold chunk_uncompressed_len in E3. repeat (case_match; try done).
      + unfold read_exact in E2. case_match; [done|]. injection E2 as <-. done.
      + unfold read_exact in E2. case_match; done.
    - unfold read_exact in E1. case_match; [done|]. injection E1 as <-. done.
    - unfold read_exact in E1. case_match; done.
  Qed.

  Lemma frame_chunks_len fuel n out fr u : frame_chunks fuel n out fr = Some u -> lenN u = n.
  Proof.
    revert out fr. induction fuel as [|f IH]; intros out fr; cbn [Wire.frame_chunks];
      (destruct (N.leb_spec n (lenN out)) as [Hle|Hlt];
        [intros [= <-]; unfold lenN in *; rewrite take_length; lia|]); [done|].
    destruct fr as [|ty [|a [|b [|c rest]]]]; try done. cbn zeta.
    repeat (case_match; try done); apply IH.
  Qed.
  Lemma frame_decode_len n fr u : frame_decode n fr = Some u -> lenN u = n.
  Proof. unfold Wire.frame_decode. case_bool_decide; [apply frame_chunks_len|done]. Qed.

  Lemma decode_payload_spec s u n s' :
    bytes_ok s -> decode_payload s = Ok (u, n, s') ->
    exists pre mid size, s = pre ++ mid ++ s' /\
      decode_varint pre = Ok (size, []) /\
      lenN u = size /\ size <= MAX_PAYLOAD_SIZE /\
      lenN mid = n /\ n <= MAX_COMPRESSED_PAYLOAD_SIZE /\ (length pre <= 5)%nat.
  Proof.
    intros Hok. unfold Wire.decode_payload.
    destruct (read_varint s) as [[size s1]| |] eqn:Ev; cbn [rbind]; [|done|done].
    assert (exists pre, s = pre ++ s1 /\ decode_varint pre = Ok (size, []) /\ (length pre <= 5)%nat)
      as (pre & -> & Hpre & Hl5).
    { unfold read_varint in Ev. change [] with (@nil N) in Ev.
      assert (forall k buf s, (length buf + k <= 5)%nat -> read_varint_loop k buf s = Ok (size, s1) ->
        bytes_ok s -> Forall (fun b => 128 <= b /\ b < 256) buf ->
        exists pre, s = pre ++ s1 /\ decode_varint (buf ++ pre) = Ok (size, []) /\ (length (buf ++ pre) <= 5)%nat)
        as Hgen.
      { clear. induction k as [|k IH]; intros buf s Hk; cbn [read_varint_loop]; [done|].
        destruct s as [|b s]; [done|]. intros H Hok Hbuf. apply Forall_cons in Hok as [Hb Hok].
        rewrite cont_bit in H by done. destruct (N.ltb_spec b 128) as [Hlt|Hge].
        - destruct (decode_varint (buf ++ [b])) as [[v r]| |] eqn:E; cbn [rbind] in H; [|done|done].
          injection H as <- <-. exists [b]. split; [done|].
          split; [|rewrite app_length; cbn; lia].
          (* the decoder stops at the last byte *)
          cbn [fst]. rewrite E. f_equal. f_equal.
          assert (forall i acc, decode_loop i acc (buf ++ [b]) = Ok (v, r) -> r = []) as Hr; [|by eapply Hr].
          clear E. induction buf as [|x buf IHb]; intros i acc; cbn [app decode_loop].
          + destruct (32 <=? 7 * i); [done|]. rewrite cont_bit by done.
            destruct (N.ltb_spec b 128); [|lia]. by intros [= _ <-].
          + apply Forall_cons in Hbuf as [Hx Hbuf]. destruct (32 <=? 7 * i); [done|].
            rewrite cont_bit by lia. destruct (N.ltb_spec x 128); [lia|].
            apply IHb; [cbn in Hk; lia|done].
        - apply IH in H as (pre & -> & Hd & Hl); [|rewrite app_length; cbn; lia|done|].
          + exists (b :: pre). rewrite <- app_assoc in Hd, Hl. done.
          + apply Forall_app. split; [done|]. constructor; [lia|constructor]. }
      apply Hgen in Ev; [|cbn; lia|done|constructor]. done. }
    destruct (N.ltb_spec MAX_PAYLOAD_SIZE size) as [|Hmax]; [done|].
    destruct (N.eqb_spec size 0) as [->|Hz].
    - intros [= <- <- <-]. exists pre, [], 0. by repeat split.
    - unfold Wire.read_snappy_frame.
      destruct (read_chunks _ size [] 0 s1) as [[fr s2]| |] eqn:Er; cbn [rbind]; [|done|done].
      destruct (frame_decode size fr) as [u'|] eqn:Ef; [|done]. intros [= <- <- <-].
      apply read_chunks_spec in Er as (H1 & mid & Hm & ->); [|done]. cbn [app] in Hm. subst mid.
      exists pre, fr, size. repeat split; try done. by apply frame_decode_len in Ef.
  Qed.

  Lemma decode_payload_no_fuel s :
    decode_payload s <> Err OutOfFuel /\ decode_payload s <> Panic.
  Proof.
    unfold Wire.decode_payload.
    assert (forall k buf s, (length buf + k <= 5)%nat ->
      read_varint_loop k buf s <> Err OutOfFuel /\ read_varint_loop k buf s <> Panic) as Hv.
    { induction k as [|k IH]; intros buf st Hk; cbn [read_varint_loop]; [done|].
      destruct st as [|b st]; [done|]. destruct (_ =? 0).
      - assert (forall bs i acc, (N.of_nat (length bs) + i <= 5) ->
          decode_loop i acc bs <> Err OutOfFuel /\ decode_loop i acc bs <> Panic) as Hd.
        { clear. induction bs as [|x bs IHb]; intros i acc Hi; cbn [decode_loop]; [done|].
          cbn [length] in Hi. destruct (N.leb_spec 32 (7 * i)); [lia|].
          destruct (_ =? 0); [done|]. apply IHb. lia. }
        destruct (Hd (buf ++ [b]) 0 0) as [H1 H2]; [rewrite app_length; cbn; lia|].
        unfold decode_varint. destruct (decode_loop 0 0 (buf ++ [b])); cbn [rbind]; [done|split; congruence|done].
      - apply IH. rewrite app_length. cbn. lia. }
    destruct (Hv 5%nat [] s) as [H1 H2]; [cbn; lia|]. unfold read_varint.
    destruct (read_varint_loop 5 [] s) as [[size s1]|e|]; cbn [rbind]; [|split; congruence|done].
    destruct (_ <? _); [done|]. destruct (_ =? 0); [done|].
    unfold Wire.read_snappy_frame.
    destruct (read_chunks_fuel (S (length s1)) size [] 0 s1) as [H3 H4]; [lia|].
    destruct (read_chunks _ _ _ _ _) as [[fr s2]|e|]; cbn [rbind]; [|split; congruence|done].
    by destruct (frame_decode size fr).
  Qed.

  (** Nothing beyond the cap is looked at. *)
  Lemma read_exact_prefix n (a x y : bytes) :
    n <= lenN a -> exists d a', read_exact n (a ++ x) = Ok (d, a' ++ x) /\
      read_exact n (a ++ y) = Ok (d, a' ++ y) /\ lenN a = n + lenN a' /\ lenN d = n.
  Proof.
    intros Hn. exists (take (N.to_nat n) a), (drop (N.to_nat n) a).
    unfold read_exact, lenN in *. rewrite !app_length.
    destruct (N.leb_spec n (N.of_nat (length a + length x))); [|lia].
    destruct (N.leb_spec n (N.of_nat (length a + length y))); [|lia].
    rewrite !take_app_le, !drop_app_le by lia. repeat split; [|].
    - rewrite drop_length. lia.
    - rewrite take_length. lia.
  Qed.

  Definition same_read (x y : io (bytes * bytes)) : Prop :=
    match x, y with
    | Ok (fr, _), Ok (fr', _) => fr = fr'
    | Err e, Err e' => e = e'
    | _, _ => False
    end.

  Lemma read_chunks_prefix f1 f2 expected frame ulen a x y :
    (length (a ++ x) < f1)%nat -> (length (a ++ y) < f2)%nat ->
    MAX_COMPRESSED_PAYLOAD_SIZE + 4 <= lenN frame + lenN a ->
    lenN frame <= MAX_COMPRESSED_PAYLOAD_SIZE ->
    same_read (read_chunks f1 expected frame ulen (a ++ x)) (read_chunks f2 expected frame ulen (a ++ y)).
  Proof.
    revert f2 frame ulen a. induction f1 as [|f1 IH]; intros f2 frame ulen a H1 H2 Ha Hf; [lia|].
    destruct f2 as [|f2]; [lia|]. cbn [Wire.read_chunks].
    destruct (ulen <? expected); [|done].
    destruct (read_exact_prefix 4 a x y) as (d & a' & -> & -> & Hl & Hd); [lia|]. cbn [rbind].
    destruct d as [|ty [|p1 [|p2 [|p3 [|? ?]]]]]; try (unfold lenN in Hd; cbn [length] in Hd; lia).
    destruct (N.ltb_spec MAX_COMPRESSED_PAYLOAD_SIZE (lenN frame + 4 + le24 p1 p2 p3)) as [|Hcap]; [done|].
    destruct (read_exact_prefix (le24 p1 p2 p3) a' x y) as (d2 & a2 & -> & -> & Hl2 & Hd2); [lia|]. cbn [rbind].
    unfold chunk_uncompressed_len.
    assert (forall k : io N, k <> Panic -> same_read
      (let! n := k in if expected <? ulen + n then Err InvalidData
        else read_chunks f1 expected (frame ++ [ty; p1; p2; p3] ++ d2) (ulen + n) (a2 ++ x))
      (let! n := k in if expected <? ulen + n then Err InvalidData
        else read_chunks f2 expected (frame ++ [ty; p1; p2; p3] ++ d2) (ulen + n) (a2 ++ y))) as Hk.
    { intros k Hk. destruct k as [n|e|]; cbn [rbind]; [|done|done].
      destruct (_ <? _); [done|].
      assert (lenN (frame ++ [ty; p1; p2; p3] ++ d2) = lenN frame + 4 + lenN d2) as Hfr
        by (unfold lenN; rewrite !app_length; cbn [length]; lia).
      apply IH; [| |rewrite Hfr; lia|rewrite Hfr; lia].
      - unfold lenN in Hl, Hl2. rewrite app_length in *. lia.
      - unfold lenN in Hl, Hl2. rewrite app_length in *. lia. }
    apply Hk. repeat case_match; done.
  Qed.

  Lemma read_varint_prefix k buf a x y :
    (k <= length a)%nat ->
    match read_varint_loop k buf (a ++ x), read_varint_loop k buf (a ++ y) with
    | Ok (v, s), Ok (v', s') => v = v' /\ exists a', s = a' ++ x /\ s' = a' ++ y /\ (length a <= k + length a')%nat
    | Err e, Err e' => e = e'
    | Panic, Panic => True
    | _, _ => False
    end.
  Proof.
    revert buf a. induction k as [|k IH]; intros buf a Hk; cbn [read_varint_loop]; [done|].
    destruct a as [|b a]; [cbn in Hk; lia|]. cbn [app]. destruct (_ =? 0).
    - destruct (decode_varint (buf ++ [b])) as [[v r]|e|]; cbn [rbind]; [|done|done].
      split; [done|]. exists a. cbn [length]. repeat split; lia.
    - cbn in Hk. specialize (IH (buf ++ [b]) a ltac:(lia)).
      destruct (read_varint_loop k (buf ++ [b]) (a ++ x)) as [[v s]|e|],
               (read_varint_loop k (buf ++ [b]) (a ++ y)) as [[v' s']|e'|]; try done.
      destruct IH as [-> (a' & -> & -> & Hl)]. split; [done|]. exists a'. cbn [length]. repeat split; lia.
  Qed.

  Lemma decode_payload_bounded a x y :
    MAX_COMPRESSED_PAYLOAD_SIZE + 9 <= lenN a ->
    same_outcome (decode_payload (a ++ x)) (decode_payload (a ++ y)).
  Proof.
    intros Ha. unfold Wire.decode_payload, read_varint.
    pose proof (read_varint_prefix 5 [] a x y) as Hv. unfold lenN in Ha. specialize (Hv ltac:(lia)).
    pose proof (proj2 (decode_payload_no_fuel (a ++ x))) as Hp. unfold Wire.decode_payload, read_varint in Hp.
    destruct (read_varint_loop 5 [] (a ++ x)) as [[v s]|e|],
             (read_varint_loop 5 [] (a ++ y)) as [[v' s']|e'|]; cbn [rbind] in *; try done.
    destruct Hv as [<- (a' & -> & -> & Hl)].
    destruct (_ <? v); [done|]. destruct (v =? 0); [done|].
    unfold Wire.read_snappy_frame in *.
    pose proof (read_chunks_prefix (S (length (a' ++ x))) (S (length (a' ++ y))) v [] 0 a' x y) as Hr.
    specialize (Hr ltac:(lia) ltac:(lia)). change (lenN (@nil N)) with 0 in Hr. unfold lenN in Hr.
    specialize (Hr ltac:(lia) ltac:(lia)).
    destruct (read_chunks _ _ _ _ (a' ++ x)) as [[fr s]|e|],
             (read_chunks _ _ _ _ (a' ++ y)) as [[fr' s']|e'|]; cbn [rbind same_read] in *; try done.
    subst fr'. destruct (frame_decode v fr); done.
  Qed.

  (** ** Round trip *)
  Context (raw_compress : bytes -> bytes).
  Context (Hdec : forall b, raw_decompress (raw_compress b) = Some b).
  Context (Hlen : forall b, raw_len (raw_compress b) = Some (lenN b)).
  Context (Hcrc : forall b, length (crc b) = 4%nat).
  Notation encode_chunk := (encode_chunk raw_compress crc).
  Notation encode_blocks := (encode_blocks raw_compress crc).
  Notation frame_encode := (frame_encode raw_compress crc).

  (** A chunk is a type, a length and data; decoding the data gives the block. *)
  Lemma take_crc b x : take 4 (crc b ++ x) = crc b.
  Proof. by rewrite take_app_alt. Qed.
  Lemma drop_crc b x : drop 4 (crc b ++ x) = x.
  Proof. by rewrite drop_app_alt. Qed.
  Lemma take_lenN (a r : bytes) : take (N.to_nat (lenN a)) (a ++ r) = a.
  Proof. unfold lenN. by rewrite Nat2N.id, take_app. Qed.
  Lemma drop_lenN (a r : bytes) : drop (N.to_nat (lenN a)) (a ++ r) = r.
  Proof. unfold lenN. by rewrite Nat2N.id, drop_app. Qed.
  Lemma encode_chunk_form b :
    b <> [] -> lenN b <= MAX_BLOCK_SIZE ->
    exists ty data, encode_chunk b = ty :: to_le24 (lenN data) ++ data /\
      4 <= lenN data <= 4 + lenN b /\
      chunk_uncompressed_len raw_len ty data = Ok (lenN b) /\
      forall f n out rest, lenN out < n ->
        frame_chunks (S f) n out (encode_chunk b ++ rest) = frame_chunks f n (out ++ b) rest.
  Proof.
    intros Hne Hb. unfold Wire.encode_chunk. set (z := raw_compress b).
    assert (lenN (crc b) = 4) as Hc by (unfold lenN; by rewrite Hcrc).
    assert (lenN (crc b ++ z) = 4 + lenN z) as Hlz by (unfold lenN in *; rewrite app_length; lia).
    assert (lenN (crc b ++ b) = 4 + lenN b) as Hlb by (unfold lenN in *; rewrite app_length; lia).
    rewrite MBS in Hb.
    destruct (N.ltb_spec (lenN z) (lenN b - lenN b / 8)) as [Hlt|Hge].
    - exists 0, (crc b ++ z). split; [by rewrite Hlz|]. split; [lia|]. split.
      + unfold chunk_uncompressed_len. cbn [N.eqb]. change (0 =? 0) with true. cbn iota.
        rewrite Hlz. destruct (N.ltb_spec (4 + lenN z) 4); [lia|].
        rewrite drop_crc. unfold z. by rewrite Hlen.
      + intros f n out rest Hn. rewrite <- Hlz. unfold to_le24. cbn [app Wire.frame_chunks].
        destruct (N.leb_spec n (lenN out)); [lia|]. cbn zeta. rewrite le24_to by lia.
        destruct (N.ltb_spec (lenN ((crc b ++ z) ++ rest)) (lenN (crc b ++ z))) as [Hl|_].
        { unfold lenN in Hl. rewrite app_length in Hl. lia. }
        change (0 =? 0) with true. cbn iota.
        destruct (N.ltb_spec (lenN (crc b ++ z)) 4); [lia|].
        rewrite take_lenN, drop_lenN, take_crc, drop_crc. unfold z. rewrite Hdec.
        by rewrite bool_decide_true.
    - exists 1, (crc b ++ b). split; [by rewrite Hlb|]. split; [lia|]. split.
      + unfold chunk_uncompressed_len. change (1 =? 0) with false. change (1 =? 1) with true. cbn iota.
        rewrite Hlb. destruct (N.ltb_spec (4 + lenN b) 4); [lia|]. f_equal. lia.
      + intros f n out rest Hn. rewrite <- Hlb. unfold to_le24. cbn [app Wire.frame_chunks].
        destruct (N.leb_spec n (lenN out)); [lia|]. cbn zeta. rewrite le24_to by lia.
        destruct (N.ltb_spec (lenN ((crc b ++ b) ++ rest)) (lenN (crc b ++ b))) as [Hl|_].
        { unfold lenN in Hl. rewrite app_length in Hl. lia. }
        change (1 =? 0) with false. change (1 =? 1) with true. cbn iota.
        destruct (N.ltb_spec (lenN (crc b ++ b)) 4); [lia|].
        rewrite take_lenN, drop_lenN, take_crc, drop_crc. by rewrite bool_decide_true.
  Qed.
  Notation KB := (N.to_nat MAX_BLOCK_SIZE).

  Lemma encode_blocks_cons f p :
    p <> [] -> encode_blocks (S f) p = encode_chunk (take KB p) ++ encode_blocks f (drop KB p).
  Proof. by destruct p. Qed.
  Lemma encode_blocks_nil f : encode_blocks f [] = [].
  Proof. by destruct f. Qed.
  Lemma KB_pos : (0 < KB)%nat.
  Proof. pose proof MBS. lia. Qed.
  Lemma KB_N : N.of_nat KB = MAX_BLOCK_SIZE.
  Proof. apply N2Nat.id. Qed.
  Lemma take_block (p : bytes) : p <> [] -> take KB p <> [] /\ lenN (take KB p) <= MAX_BLOCK_SIZE.
  Proof.
    intros Hp. pose proof KB_pos as HK. split.
    - destruct p; [done|]. destruct KB; [lia|]. done.
    - unfold lenN. rewrite take_length. pose proof MBS. lia.
  Qed.

  (** Compressed size: eight bytes of overhead per block at most. *)
  Lemma encode_blocks_len f (p : bytes) :
    (length p <= f)%nat ->
    MAX_BLOCK_SIZE * lenN (encode_blocks f p) <= MAX_BLOCK_SIZE * lenN p + 8 * (lenN p + MAX_BLOCK_SIZE) /\
    (p = [] -> lenN (encode_blocks f p) = 0).
  Proof.
    revert p. induction f as [|f IH]; intros p Hf.
    { destruct p; [|cbn in Hf; lia]. split; [change (lenN (@nil N)) with 0; rewrite encode_blocks_nil; change (lenN (@nil N)) with 0; lia|intros _; by rewrite encode_blocks_nil]. }
    destruct (decide (p = [])) as [->|Hne]; [split; [change (lenN (@nil N)) with 0; rewrite encode_blocks_nil; change (lenN (@nil N)) with 0; lia|intros _; by rewrite encode_blocks_nil]|].
    split; [|intros ->; by destruct Hne]. rewrite encode_blocks_cons by done.
    destruct (take_block p Hne) as [Ht Hl].
    destruct (encode_chunk_form _ Ht Hl) as (ty & data & He & [_ Hd] & _ & _).
    pose proof KB_N as HK.
    revert Ht Hl He Hd HK. generalize KB as K. intros K Ht Hl He Hd HK.
    rewrite MBS in Hl. rewrite MBS in HK. rewrite MBS.
    assert (forall q : bytes, (length q <= f)%nat ->
      65536 * lenN (encode_blocks f q) <= 65536 * lenN q + 8 * (lenN q + 65536) /\
      (q = [] -> lenN (encode_blocks f q) = 0)) as IH' by (intros q Hq; destruct (IH q Hq) as [IHq1 IHq2]; rewrite MBS in IHq1; done).
    clear IH.
    destruct (IH' (drop K p)) as [IH1 IH2]; [rewrite drop_length; lia|].
    assert (lenN (encode_chunk (take K p)) <= 8 + lenN (take K p)) as Hc.
    { rewrite He. unfold lenN in *. cbn [length to_le24 app]. lia. }
    assert (lenN (encode_chunk (take K p) ++ encode_blocks f (drop K p)) =
            lenN (encode_chunk (take K p)) + lenN (encode_blocks f (drop K p))) as ->
      by (unfold lenN; rewrite app_length; lia).
    assert (lenN (take K p) + lenN (drop K p) = lenN p) as Hsum.
    { unfold lenN. rewrite take_length, drop_length. lia. }
    destruct (decide (drop K p = [])) as [E|E].
    - rewrite IH2 by done. rewrite E in Hsum. change (lenN (@nil N)) with 0 in Hsum. lia.
    - assert (lenN (take K p) = 65536) as Hfull.
      { assert (K < length p)%nat.
        { apply Nat.nle_gt. intros Hle. apply E. by apply drop_ge. }
        unfold lenN. rewrite take_length. lia. }
      lia.
  Qed.

  (** Reading the chunks of an encoded payload stops exactly at its end. *)
  Lemma read_encoded_blocks f p fuel frame ulen expected rest :
    (length p <= f)%nat -> (length (encode_blocks f p) < fuel)%nat -> expected = ulen + lenN p ->
    lenN frame + lenN (encode_blocks f p) <= MAX_COMPRESSED_PAYLOAD_SIZE ->
    read_chunks fuel expected frame ulen (encode_blocks f p ++ rest) =
    Ok (frame ++ encode_blocks f p, rest).
  Proof.
    revert p fuel frame ulen. induction f as [|f IH]; intros p fuel frame ulen Hf Hfu He Hcap.
    { destruct p; [|cbn in Hf; lia]. cbn [Wire.encode_blocks app]. rewrite app_nil_r.
      change (lenN (@nil N)) with 0 in He.
      destruct fuel; cbn [Wire.read_chunks]; (destruct (N.ltb_spec ulen expected); [lia|done]). }
    destruct (decide (p = [])) as [->|Hne].
    { rewrite encode_blocks_nil. cbn [app]. rewrite app_nil_r. change (lenN (@nil N)) with 0 in He.
      destruct fuel; cbn [Wire.read_chunks]; (destruct (N.ltb_spec ulen expected); [lia|done]). }
    destruct (take_block p Hne) as [Ht Hl].
    rewrite encode_blocks_cons in Hcap, Hfu |- * by done.
    destruct (encode_chunk_form _ Ht Hl) as (ty & data & Hc & [Hd1 Hd2] & Hu & _).
    pose proof KB_pos as HK.
    assert (lenN (take KB p) + lenN (drop KB p) = lenN p) as Hsum.
    { unfold lenN. rewrite take_length, drop_length. lia. }
    assert (0 < lenN (take KB p)) as Hpos.
    { unfold lenN. destruct (take KB p); [done|]. cbn. lia. }
    destruct fuel as [|fuel]; [lia|]. cbn [Wire.read_chunks].
    destruct (N.ltb_spec ulen expected); [|lia].
    rewrite Hc in Hcap, Hfu |- *. set (eb := encode_blocks f (drop KB p)) in *.
    assert (lenN ((ty :: to_le24 (lenN data) ++ data) ++ eb) = 4 + lenN data + lenN eb) as Hle.
    { unfold lenN. cbn [length to_le24 app]. rewrite !app_length. lia. }
    rewrite Hle in Hcap.
    replace (((ty :: to_le24 (lenN data) ++ data) ++ eb) ++ rest)
      with ((ty :: to_le24 (lenN data)) ++ (data ++ (eb ++ rest))) by (cbn [app to_le24]; by rewrite <- !app_assoc).
    rewrite read_exact_app by done. cbn [rbind to_le24]. pose proof MBS as HMBS. rewrite le24_to by lia.
    destruct (N.ltb_spec MAX_COMPRESSED_PAYLOAD_SIZE (lenN frame + 4 + lenN data)); [lia|].
    rewrite read_exact_app by done. cbn [rbind]. rewrite Hu. cbn [rbind].
    destruct (N.ltb_spec expected (ulen + lenN (take KB p))); [lia|].
    rewrite (IH (drop KB p)).
    - f_equal. f_equal. unfold to_le24. cbn [app]. by rewrite <- !app_assoc.
    - rewrite drop_length. destruct p; [done|]. cbn [length] in *. lia.
    - fold eb. cbn [length app] in Hfu. rewrite !app_length in Hfu. lia.
    - lia.
    - fold eb. assert (lenN (frame ++ (ty :: to_le24 (lenN data)) ++ data) = lenN frame + 4 + lenN data) as ->; [|lia].
      unfold lenN. rewrite !app_length. unfold to_le24. cbn [length]. lia.
  Qed.

  Lemma decode_encoded_blocks f p fuel n out rest :
    (length p <= f)%nat -> (length (encode_blocks f p) <= fuel)%nat -> n = lenN out + lenN p ->
    frame_chunks fuel n out (encode_blocks f p ++ rest) = Some (out ++ p).
  Proof.
    revert p fuel out. induction f as [|f IH]; intros p fuel out Hf Hfu Hn.
    { destruct p; [|cbn in Hf; lia]. change (lenN (@nil N)) with 0 in Hn. rewrite app_nil_r.
      destruct fuel; cbn [Wire.frame_chunks]; (destruct (N.leb_spec n (lenN out)); [|lia]);
        f_equal; apply take_ge; unfold lenN in *; lia. }
    destruct (decide (p = [])) as [->|Hne].
    { change (lenN (@nil N)) with 0 in Hn. rewrite app_nil_r.
      destruct fuel; cbn [Wire.frame_chunks]; (destruct (N.leb_spec n (lenN out)); [|lia]);
        f_equal; apply take_ge; unfold lenN in *; lia. }
    destruct (take_block p Hne) as [Ht Hl].
    rewrite encode_blocks_cons in Hfu |- * by done.
    destruct (encode_chunk_form _ Ht Hl) as (ty & data & Hc & _ & _ & Hfc).
    assert (1 <= length (encode_chunk (take KB p)))%nat as H1 by (rewrite Hc; cbn [length]; lia).
    pose proof KB_pos as HK. clear Hc Hl Ht. revert H1 Hfc HK Hfu. generalize KB. intros K H1 Hfc HK Hfu.
    assert (lenN (take K p) + lenN (drop K p) = lenN p) as Hsum.
    { unfold lenN. rewrite take_length, drop_length. lia. }
    assert (0 < lenN p) as Hpos by (unfold lenN; destruct p; [done|cbn; lia]).
    rewrite app_length in Hfu.
    destruct fuel as [|fuel]; [lia|].
    rewrite <- app_assoc, Hfc by lia.
    rewrite (IH (drop K p)).
    - by rewrite <- app_assoc, take_drop.
    - rewrite drop_length. destruct p; [done|]. cbn [length] in *. lia.
    - lia.
    - unfold lenN in *. rewrite app_length. lia.
  Qed.

  Lemma encode_blocks_min f p : (length p <= f)%nat -> (p = [] \/ 1 <= length (encode_blocks f p))%nat.
  Proof.
    intros Hf. destruct (decide (p = [])) as [->|Hne]; [by left|right].
    destruct f as [|f]; [destruct p; [done|cbn in Hf; lia]|].
    rewrite encode_blocks_cons by done. rewrite app_length.
    destruct (take_block p Hne) as [Ht Hl].
    destruct (encode_chunk_form _ Ht Hl) as (ty & data & Hc & _). rewrite Hc. cbn [length]. lia.
  Qed.

  (** The stream identifier is one chunk without data. *)
  Lemma read_chunks_id fuel expected s :
    0 < expected ->
    read_chunks (S fuel) expected [] 0 (stream_id ++ s) = read_chunks fuel expected stream_id 0 s.
  Proof.
    intros He. cbn [Wire.read_chunks]. destruct (N.ltb_spec 0 expected); [|lia].
    change (stream_id ++ s) with ([255; 6; 0; 0] ++ ([115; 78; 97; 80; 112; 89] ++ s)).
    rewrite read_exact_app by done. cbn [rbind]. change (le24 6 0 0) with 6.
    change (MAX_COMPRESSED_PAYLOAD_SIZE <? lenN (@nil N) + 4 + 6) with false. cbn iota.
    rewrite read_exact_app by done. cbn [rbind]. unfold chunk_uncompressed_len.
    change (255 =? 0) with false. change (255 =? 1) with false. change (128 <=? 255) with true.
    cbn [rbind]. destruct (N.ltb_spec expected (0 + 0)); [lia|]. done.
  Qed.
  Lemma frame_chunks_id fuel n s :
    0 < n -> frame_chunks (S fuel) n [] (stream_id ++ s) = frame_chunks fuel n [] s.
  Proof.
    intros Hn. unfold stream_id at 1. cbn [app Wire.frame_chunks].
    change (lenN (@nil N)) with 0. destruct (N.leb_spec n 0); [lia|].
    cbn zeta. change (le24 6 0 0) with 6.
    destruct (N.ltb_spec (lenN (115 :: 78 :: 97 :: 80 :: 112 :: 89 :: s)) 6) as [Hx|_].
    { unfold lenN in Hx. cbn [length] in Hx. lia. }
    change (255 =? 0) with false. change (255 =? 1) with false. change (255 =? 255) with true. cbn iota.
    change (N.to_nat 6) with 6%nat. cbn [take drop]. rewrite bool_decide_true by done. done.
  Qed.

  Lemma frame_roundtrip p rest :
    p <> [] -> lenN p <= 10484736 ->
    read_snappy_frame (lenN p) (frame_encode p ++ rest) = Ok (p, lenN (frame_encode p), rest).
  Proof.
    intros Hne Hp. assert (0 < lenN p) as Hpos by (unfold lenN; destruct p; [done|cbn [length]; lia]).
    assert (frame_encode p = stream_id ++ encode_blocks (length p) p) as -> by (by destruct p).
    destruct (encode_blocks_len (length p) p) as [Hl _]; [lia|]. rewrite MBS in Hl.
    pose proof (fun fuel frame => read_encoded_blocks (length p) p fuel frame 0 (lenN p) rest (Nat.le_refl _)) as Hr.
    pose proof (fun fuel => decode_encoded_blocks (length p) p fuel (lenN p) [] [] (Nat.le_refl _)) as Hd.
    revert Hl Hr Hd. generalize (encode_blocks (length p) p) as eb. intros eb Hl Hr Hd.
    unfold Wire.read_snappy_frame. rewrite <- app_assoc, read_chunks_id by done.
    rewrite Hr; [| rewrite app_length; cbn [length stream_id app]; rewrite app_length; lia | lia
                 | change (lenN stream_id) with 10; unfold MAX_COMPRESSED_PAYLOAD_SIZE, MAX_PAYLOAD_SIZE; lia].
    cbn [rbind]. unfold Wire.frame_decode. rewrite bool_decide_true by done.
    rewrite app_length. change (length stream_id) with 10%nat. cbn [Nat.add].
    rewrite frame_chunks_id by done. rewrite app_nil_r in Hd. rewrite Hd; [done|lia|done].
  Qed.

  Lemma payload_roundtrip p w n rest :
    write_payload raw_compress crc p = Ok (w, n) ->
    decode_payload (w ++ rest) = Ok (p, n, rest).
  Proof.
    unfold write_payload. destruct (N.ltb_spec (MAX_PAYLOAD_SIZE - 1024) (lenN p)) as [|Hp]; [done|].
    intros [= <- <-]. unfold Wire.decode_payload. rewrite <- app_assoc.
    assert (MAX_PAYLOAD_SIZE = 10485760) as HM by done.
    rewrite read_varint_roundtrip by (unfold two32; lia). cbn [rbind].
    destruct (N.ltb_spec MAX_PAYLOAD_SIZE (lenN p)); [lia|].
    destruct (N.eqb_spec (lenN p) 0) as [E|E].
    { destruct p; [done|]. unfold lenN in E. cbn in E. lia. }
    apply frame_roundtrip; [by intros ->|lia].
  Qed.

  (** ** Block responses *)
  Context {B : Type} (to_ssz : B -> bytes) (from_ssz : bytes -> option B).
  Notation write_blocks := (write_blocks raw_compress crc to_ssz).
  Notation read_blocks := (read_blocks raw_decompress raw_len crc from_ssz).
  Definition fits (b : B) : bool := lenN (to_ssz b) <=? MAX_PAYLOAD_SIZE - 1024.

  Lemma blocks_roundtrip bs fuel acc :
    (forall b, from_ssz (to_ssz b) = Some b) ->
    exists w, write_blocks bs = Ok w /\
      ((length w <= fuel)%nat -> read_blocks fuel acc w = Ok (acc ++ List.filter fits bs)).
  Proof.
    intros Hssz. revert fuel acc. induction bs as [|b bs IH]; intros fuel acc.
    { exists []. split; [done|]. intros _. destruct fuel; cbn; by rewrite app_nil_r. }
    cbn [Wire.write_blocks List.filter]. unfold fits at 1.
    destruct (N.ltb_spec (MAX_PAYLOAD_SIZE - 1024) (lenN (to_ssz b))) as [Hbig|Hsm].
    { destruct (N.leb_spec (lenN (to_ssz b)) (MAX_PAYLOAD_SIZE - 1024)); [lia|]. apply IH. }
    destruct (N.leb_spec (lenN (to_ssz b)) (MAX_PAYLOAD_SIZE - 1024)); [|lia].
    destruct (write_payload raw_compress crc (to_ssz b)) as [[w1 n1]|e|] eqn:Ew.
    2:{ unfold write_payload in Ew. destruct (N.ltb_spec (MAX_PAYLOAD_SIZE - 1024) (lenN (to_ssz b))); [lia|done]. }
    2:{ unfold write_payload in Ew. case_match; done. }
    destruct (IH (pred fuel) (acc ++ [b])) as (w & -> & Hw). cbn [rbind].
    exists (0 :: w1 ++ w). split; [done|]. intros Hf. cbn [length] in Hf. rewrite app_length in Hf.
    destruct fuel as [|fuel]; [lia|]. cbn [Wire.read_blocks].
    rewrite (payload_roundtrip _ _ _ _ Ew). cbn [rbind]. change (0 =? 0) with true. cbn [negb].
    rewrite Hssz. cbn [pred] in Hw. rewrite Hw by lia. by rewrite <- app_assoc.
  Qed.
  Lemma chunks_roundtrip (cs : list (N * bytes)) bs w fuel acc :
    chunk_stream raw_compress crc cs w -> success_blocks from_ssz cs bs ->
    (length w <= fuel)%nat -> read_blocks fuel acc w = Ok (acc ++ bs).
  Proof.
    intros Hw. revert bs fuel acc. induction Hw as [|code p buf n cs w Hp Hw IH]; intros bs fuel acc Hb Hf.
    { inversion Hb; subst. destruct fuel; cbn; by rewrite app_nil_r. }
    cbn [length] in Hf. rewrite app_length in Hf.
    destruct fuel as [|fuel]; [lia|]. cbn [Wire.read_blocks].
    rewrite (payload_roundtrip _ _ _ _ Hp). cbn [rbind].
    inversion Hb as [|p0 b cs0 bs0 Hz Hb'|code0 p0 cs0 bs0 Hc Hb']; subst.
    - change (0 =? 0) with true. cbn [negb]. rewrite Hz. rewrite (IH bs0) by (done || lia). by rewrite <- app_assoc.
    - apply N.eqb_neq in Hc. rewrite Hc. cbn [negb]. apply IH; [done|lia].
  Qed.
End SnappyProofs.

(** A run-length codec, to run the examples. *)
Definition toy_compress (b : bytes) : bytes :=
  match b with
  | x :: _ => if bool_decide (b = replicate (length b) x) then [1; x; N.of_nat (length b)] else 0 :: b
  | [] => [0]
  end.
Definition toy_decompress (z : bytes) : option bytes :=
  match z with
  | [1; x; n] => Some (replicate (N.to_nat n) x)
  | 0 :: b => Some b
  | _ => None
  end.
Definition toy_len (z : bytes) : option N := lenN <$> toy_decompress z.
Definition toy_crc (b : bytes) : bytes := [lenN b mod 256; default 0 (head b); default 0 (last b); 7].
Lemma toy_ok : snappy_ok toy_compress toy_decompress toy_len toy_crc.
Proof.
  assert (forall b, toy_decompress (toy_compress b) = Some b) as H.
  { intros [|x b]; [done|]. unfold toy_compress. case_bool_decide as E; [|done].
    cbn [toy_decompress]. by rewrite Nat2N.id, <- E. }
  split; [done| |done]. intros b. unfold toy_len. by rewrite H.
Qed.
