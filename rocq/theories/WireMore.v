From Verif Require Export WireProofs.
Lemma C44_varint_roundtrip_pf v rest :
  v < 2 ^ 32 ->
  decode_varint (encode_varint v ++ rest) = Ok (v, rest) /\
  read_varint (encode_varint v ++ rest) = Ok (v, rest) /\
  bytes_ok (encode_varint v) /\
  (1 <= length (encode_varint v) <= 5)%nat.
Proof.
  intros Hv. split; [by apply varint_roundtrip|]. split; [by apply read_varint_roundtrip|].
  split; [apply encode_loop_ok|apply varint_length].
Qed.

Lemma C45_varint_canonical_refuted_pf :
  exists bs bs' v, bytes_ok bs /\ bytes_ok bs' /\ bs <> bs' /\
    decode_varint bs = Ok (v, []) /\ decode_varint bs' = Ok (v, []) /\
    read_varint bs = Ok (v, []) /\ read_varint bs' = Ok (v, []).
Proof.
  exists [0], [128; 128; 128; 128; 16], 0. split; [repeat constructor|].
  split; [repeat (constructor; [done|]); constructor|]. done.
Qed.

Lemma C46_frame_exact_pf raw_decompress raw_len crc s u n s' :
  bytes_ok s -> decode_payload raw_decompress raw_len crc s = Ok (u, n, s') ->
  exists prefix frame size,
    s = prefix ++ frame ++ s' /\
    decode_varint prefix = Ok (size, []) /\ (length prefix <= 5)%nat /\
    lenN u = size /\ size <= 10 * 1024 * 1024 /\
    lenN frame = n /\ n <= MAX_COMPRESSED_PAYLOAD_SIZE.
Proof.
  intros Hok Hd. destruct (decode_payload_spec _ _ _ _ _ _ _ Hok Hd)
    as (pre & mid & size & H1 & H2 & H3 & H4 & H5 & H6 & H7).
  exists pre, mid, size. repeat split; assumption.
Qed.

Lemma C46_total_pf raw_decompress raw_len crc s :
  decode_payload raw_decompress raw_len crc s <> Panic /\
  decode_payload raw_decompress raw_len crc s <> Err OutOfFuel.
Proof.
  destruct (decode_payload_no_fuel raw_decompress raw_len crc s). done.
Qed.

Lemma C46_roundtrip_pf raw_compress raw_decompress raw_len crc payload w n rest :
  snappy_ok raw_compress raw_decompress raw_len crc ->
  write_payload raw_compress crc payload = Ok (w, n) ->
  decode_payload raw_decompress raw_len crc (w ++ rest) = Ok (payload, n, rest).
Proof.
  intros [H1 H2 H3]. exact (payload_roundtrip _ _ _ _ H1 H2 H3 payload w n rest).
Qed.

Lemma C57_blocks_roundtrip_pf raw_compress raw_decompress raw_len crc B to_ssz from_ssz bs :
  snappy_ok raw_compress raw_decompress raw_len crc ->
  (forall b : B, from_ssz (to_ssz b) = Some b) ->
  exists w, write_blocks raw_compress crc to_ssz bs = Ok w /\
    decode_blocks_response raw_decompress raw_len crc from_ssz w =
    Ok (List.filter (fun b => lenN (to_ssz b) <=? 10 * 1024 * 1024 - 1024) bs).
Proof.
  intros [H1 H2 H3] H4.
  destruct (blocks_roundtrip _ _ _ _ H1 H2 H3 to_ssz from_ssz bs
    (match write_blocks raw_compress crc to_ssz bs with Ok w => length w | _ => 0%nat end) [] H4) as (w & Hw & Hr).
  exists w. split; [done|]. rewrite Hw in Hr. exact (Hr (Nat.le_refl _)).
Qed.

Lemma C58_response_bound_refuted_pf raw_compress raw_decompress raw_len crc B to_ssz from_ssz b :
  snappy_ok raw_compress raw_decompress raw_len crc ->
  (forall b : B, from_ssz (to_ssz b) = Some b) ->
  lenN (to_ssz b) <= 10 * 1024 * 1024 - 1024 ->
  forall bound, exists s blocks,
    decode_blocks_response raw_decompress raw_len crc from_ssz s = Ok blocks /\ bound < lenN blocks.
Proof.
  intros Hs Hz Hb bound.
  destruct (C57_blocks_roundtrip_pf raw_compress raw_decompress raw_len crc B to_ssz from_ssz
    (replicate (N.to_nat (bound + 1)) b) Hs Hz) as (w & _ & Hr).
  exists w. eexists. split; [exact Hr|].
  assert (forall n, List.filter (fun b => lenN (to_ssz b) <=? 10 * 1024 * 1024 - 1024) (replicate n b) = replicate n b) as Hf.
  { intros n. induction n as [|n IH]; [done|]. cbn [replicate List.filter].
    destruct (N.leb_spec (lenN (to_ssz b)) (10 * 1024 * 1024 - 1024)); [|contradiction (N.lt_irrefl (lenN (to_ssz b))); lia].
    by rewrite IH. }
  rewrite Hf. unfold lenN. rewrite replicate_length. lia.
Qed.

Lemma C57_error_chunks_skipped_pf raw_compress raw_decompress raw_len crc B from_ssz cs w (bs : list B) :
  snappy_ok raw_compress raw_decompress raw_len crc ->
  chunk_stream raw_compress crc cs w -> success_blocks from_ssz cs bs ->
  decode_blocks_response raw_decompress raw_len crc from_ssz w = Ok bs.
Proof.
  intros [H1 H2 H3] Hw Hb. unfold decode_blocks_response.
  exact (chunks_roundtrip _ _ _ _ H1 H2 H3 (fun _ => []) from_ssz cs bs w _ [] Hw Hb (Nat.le_refl _)).
Qed.
