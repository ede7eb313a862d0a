(** Vocabulary of the wire properties. *)
From Verif Require Export Wire.

(** A length prefix without superfluous bytes: at most five bytes, of which the
    fifth has at most four bits, and no trailing zero byte. *)
Definition no_waste (bs : bytes) : Prop :=
  (length bs <= 5)%nat /\
  (length bs = 5%nat -> default 0 (last bs) < 16) /\
  ((1 < length bs)%nat -> default 0 (last bs) <> 0).

(** What the external codecs have to satisfy for round trips: decompression
    inverts compression, the announced length is the length, checksums have four
    bytes. *)
Record snappy_ok (raw_compress : bytes -> bytes) (raw_decompress : bytes -> option bytes)
    (raw_len : bytes -> option N) (crc : bytes -> bytes) : Prop := {
  sn_decompress : forall b, raw_decompress (raw_compress b) = Some b;
  sn_len : forall b, raw_len (raw_compress b) = Some (lenN b);
  sn_crc : forall b, length (crc b) = 4%nat;
}.

(** Two readers agree: same error, or same payload and same compressed size. *)
Definition same_outcome (x y : io (bytes * N * bytes)) : Prop :=
  match x, y with
  | Ok (u, n, _), Ok (u', n', _) => u = u' /\ n = n'
  | Err e, Err e' => e = e'
  | _, _ => False
  end.

(** A block response as the specification describes it: a sequence of chunks, each
    a result code followed by a length-prefixed compressed payload. *)
Inductive chunk_stream (raw_compress : bytes -> bytes) (crc : bytes -> bytes)
  : list (N * bytes) -> bytes -> Prop :=
| cs_nil : chunk_stream raw_compress crc [] []
| cs_cons code p buf n cs w :
    write_payload raw_compress crc p = Ok (buf, n) -> chunk_stream raw_compress crc cs w ->
    chunk_stream raw_compress crc ((code, p) :: cs) (code :: buf ++ w).

(** The blocks of the chunks whose code is 0. *)
Inductive success_blocks {B} (from_ssz : bytes -> option B) : list (N * bytes) -> list B -> Prop :=
| sb_nil : success_blocks from_ssz [] []
| sb_ok p b cs bs : from_ssz p = Some b -> success_blocks from_ssz cs bs ->
    success_blocks from_ssz ((0, p) :: cs) (b :: bs)
| sb_skip code p cs bs : code <> 0 -> success_blocks from_ssz cs bs ->
    success_blocks from_ssz ((code, p) :: cs) bs.
