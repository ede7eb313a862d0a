(** Wire encoding: C44-C46, C57, C58.  The snappy codec, the checksum and the
    SSZ encoding are parameters. *)
From Verif Require Import WireMore.

(** ** C44 length prefixes *)
Theorem C44_varint_roundtrip v rest :
  v < 2 ^ 32 ->
  decode_varint (encode_varint v ++ rest) = Ok (v, rest) /\
  read_varint (encode_varint v ++ rest) = Ok (v, rest) /\
  bytes_ok (encode_varint v) /\
  (1 <= length (encode_varint v) <= 5)%nat.
Proof. exact (C44_varint_roundtrip_pf v rest). Qed.
Print Assumptions C44_varint_roundtrip.

(** No encoding is a prefix of another one. *)
Theorem C44_varint_prefix_free v v' r r' :
  v < 2 ^ 32 -> v' < 2 ^ 32 -> encode_varint v ++ r = encode_varint v' ++ r' -> v = v' /\ r = r'.
Proof. exact (varint_prefix_free v v' r r'). Qed.
Print Assumptions C44_varint_prefix_free.

Example C44_example :
  encode_varint 300 = [172; 2] /\ encode_varint 4294967295 = [255; 255; 255; 255; 15] /\
  decode_varint [172; 2; 9; 9] = Ok (300, [9; 9]).
Proof. repeat split. Qed.

(** ** C45 accepted prefixes are canonical: false *)
(** A zero length has a five byte spelling, also one that silently drops the bit
    2^32 (the value 2^32 is read as 0), and both readers take them. *)
Theorem C45_varint_canonical_refuted :
  exists bs bs' v, bytes_ok bs /\ bytes_ok bs' /\ bs <> bs' /\
    decode_varint bs = Ok (v, []) /\ decode_varint bs' = Ok (v, []) /\
    read_varint bs = Ok (v, []) /\ read_varint bs' = Ok (v, []).
Proof. exact C45_varint_canonical_refuted_pf. Qed.
Print Assumptions C45_varint_canonical_refuted.

(** Holds for strings without superfluous bytes.  Missing: the decoder does not
    insist on it. *)
Theorem C45_varint_canonical_partial bs v :
  bytes_ok bs -> no_waste bs -> decode_varint bs = Ok (v, []) -> bs = encode_varint v.
Proof. exact (varint_canonical bs v). Qed.
Print Assumptions C45_varint_canonical_partial.

Example C45_example :
  no_waste [172; 2] /\ decode_varint [172; 2] = Ok (300, []) /\
  ~ no_waste [172; 0] /\ decode_varint [172; 0] = Ok (44, []).
Proof.
  split; [split; [cbn; lia|split; cbn; lia]|]. split; [done|]. split; [|done].
  intros (_ & _ & H). cbn in H. lia.
Qed.

(** ** C46 framed payloads *)
Theorem C46_frame_exact raw_decompress raw_len crc s u n s' :
  bytes_ok s -> decode_payload raw_decompress raw_len crc s = Ok (u, n, s') ->
  exists prefix frame size,
    s = prefix ++ frame ++ s' /\
    decode_varint prefix = Ok (size, []) /\ (length prefix <= 5)%nat /\
    lenN u = size /\ size <= 10 * 1024 * 1024 /\
    lenN frame = n /\ n <= MAX_COMPRESSED_PAYLOAD_SIZE.
Proof. exact (C46_frame_exact_pf raw_decompress raw_len crc s u n s'). Qed.
Print Assumptions C46_frame_exact.

(** Whatever follows the first [MAX_COMPRESSED_PAYLOAD_SIZE + 9] bytes is never
    looked at, also when reading fails. *)
Theorem C46_bounded raw_decompress raw_len crc a x y :
  MAX_COMPRESSED_PAYLOAD_SIZE + 9 <= lenN a ->
  same_outcome (decode_payload raw_decompress raw_len crc (a ++ x))
               (decode_payload raw_decompress raw_len crc (a ++ y)).
Proof. exact (decode_payload_bounded raw_decompress raw_len crc a x y). Qed.
Print Assumptions C46_bounded.

(** Reading never panics and the loop always ends. *)
Theorem C46_total raw_decompress raw_len crc s :
  decode_payload raw_decompress raw_len crc s <> Panic /\
  decode_payload raw_decompress raw_len crc s <> Err OutOfFuel.
Proof. exact (C46_total_pf raw_decompress raw_len crc s). Qed.
Print Assumptions C46_total.

(** What is written is read back, and nothing of what follows is consumed. *)
Theorem C46_roundtrip raw_compress raw_decompress raw_len crc payload w n rest :
  snappy_ok raw_compress raw_decompress raw_len crc ->
  write_payload raw_compress crc payload = Ok (w, n) ->
  decode_payload raw_decompress raw_len crc (w ++ rest) = Ok (payload, n, rest).
Proof. exact (C46_roundtrip_pf raw_compress raw_decompress raw_len crc payload w n rest). Qed.
Print Assumptions C46_roundtrip.

Definition ex_wire : bytes := Eval vm_compute in
  match write_payload toy_compress toy_crc (replicate 40 9) with Ok (w, _) => w | _ => [] end.
Definition ex_wire2 : bytes := Eval vm_compute in
  match write_payload toy_compress toy_crc [1; 2; 3] with Ok (w, _) => w | _ => [] end.
Example C46_example :
  snappy_ok toy_compress toy_decompress toy_len toy_crc /\
  ex_wire = [40] ++ stream_id ++ [0; 7; 0; 0; 40; 9; 9; 7; 1; 9; 40] /\
  ex_wire2 = [3] ++ stream_id ++ [1; 7; 0; 0; 3; 1; 3; 7; 1; 2; 3] /\
  decode_payload toy_decompress toy_len toy_crc (ex_wire ++ ex_wire2) = Ok (replicate 40 9, 21, ex_wire2) /\
  decode_payload toy_decompress toy_len toy_crc ([39] ++ drop 1 ex_wire) = Err InvalidData /\
  decode_payload toy_decompress toy_len toy_crc (take 15 ex_wire) = Err UnexpectedEof.
Proof. split; [exact toy_ok|]. repeat split. Qed.

(** ** C57 block responses *)
(** The receiver gets exactly the blocks that fit a payload, in order. *)
Theorem C57_blocks_roundtrip raw_compress raw_decompress raw_len crc B to_ssz from_ssz bs :
  snappy_ok raw_compress raw_decompress raw_len crc ->
  (forall b : B, from_ssz (to_ssz b) = Some b) ->
  exists w, write_blocks raw_compress crc to_ssz bs = Ok w /\
    decode_blocks_response raw_decompress raw_len crc from_ssz w =
    Ok (List.filter (fun b => lenN (to_ssz b) <=? 10 * 1024 * 1024 - 1024) bs).
Proof. exact (C57_blocks_roundtrip_pf raw_compress raw_decompress raw_len crc B to_ssz from_ssz bs). Qed.
Print Assumptions C57_blocks_roundtrip.

(** Error chunks between the blocks do not hide the blocks after them. *)
Theorem C57_error_chunks_skipped raw_compress raw_decompress raw_len crc B from_ssz cs w (bs : list B) :
  snappy_ok raw_compress raw_decompress raw_len crc ->
  chunk_stream raw_compress crc cs w -> success_blocks from_ssz cs bs ->
  decode_blocks_response raw_decompress raw_len crc from_ssz w = Ok bs.
Proof. exact (C57_error_chunks_skipped_pf raw_compress raw_decompress raw_len crc B from_ssz cs w bs). Qed.
Print Assumptions C57_error_chunks_skipped.

Example C57_error_example : exists w,
  chunk_stream toy_compress toy_crc [(0, [1; 2]); (3, [9; 9]); (0, [4])] w /\
  success_blocks Some [(0, [1; 2]); (3, [9; 9]); (0, [4])] [[1; 2]; [4]].
Proof.
  eexists. split.
  - econstructor; [vm_compute; reflexivity|]. econstructor; [vm_compute; reflexivity|].
    econstructor; [vm_compute; reflexivity|]. constructor.
  - constructor; [done|]. apply sb_skip; [done|]. constructor; [done|]. constructor.
Qed.

Example C57_example :
  exists w, write_blocks toy_compress toy_crc id [replicate 40 9; [1; 2; 3]; []] = Ok w /\ length w = 48%nat /\
  decode_blocks_response toy_decompress toy_len toy_crc Some w = Ok [replicate 40 9; [1; 2; 3]; []].
Proof. eexists. split; [reflexivity|]. split; vm_compute; reflexivity. Qed.

(** ** C58 a bound on the number of blocks of one response: false *)
(** A peer can make the node buffer any number of blocks in one response
    although a request never asks for more than 1024. *)
Theorem C58_response_bound_refuted raw_compress raw_decompress raw_len crc B to_ssz from_ssz b :
  snappy_ok raw_compress raw_decompress raw_len crc ->
  (forall b : B, from_ssz (to_ssz b) = Some b) ->
  lenN (to_ssz b) <= 10 * 1024 * 1024 - 1024 ->
  forall bound, exists s blocks,
    decode_blocks_response raw_decompress raw_len crc from_ssz s = Ok blocks /\ bound < lenN blocks.
Proof. exact (C58_response_bound_refuted_pf raw_compress raw_decompress raw_len crc B to_ssz from_ssz b). Qed.
Print Assumptions C58_response_bound_refuted.
