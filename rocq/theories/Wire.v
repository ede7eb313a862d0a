(** Model of crates/net/p2p/src/req_resp/encoding.rs and of the block response
    part of crates/net/p2p/src/req_resp/codec.rs.  Bytes are numbers below 256.
    An input stream is the list of the bytes that will arrive before the end of
    the stream. *)
From Verif Require Export Types.

Inductive io_err := UnexpectedEof | InvalidData | OutOfFuel.
Notation io := (res io_err).

Notation byte := N (only parsing).
Notation bytes := (list N) (only parsing).
Definition bytes_ok (l : bytes) : Prop := Forall (fun b => b < 256) l.

(** encoding.rs:6 *)
Definition MAX_PAYLOAD_SIZE : N := 10 * 1024 * 1024.
(** encoding.rs:9 *)
Definition MAX_COMPRESSED_PAYLOAD_SIZE : N := 32 + MAX_PAYLOAD_SIZE + MAX_PAYLOAD_SIZE / 6 + 1024.
Definition two32 : N := 4294967296.

(** encoding.rs:171-184, the loop with [n] iterations left.  The value is a
    [u32], so after five iterations nothing is left. *)
Fixpoint encode_loop (n : nat) (value : N) : bytes :=
  match n with
  | O => []
  | S n' =>
      let b := N.land value 127 in
      let value' := N.shiftr value 7 in
      if value' =? 0 then [b] else N.lor b 128 :: encode_loop n' value'
  end.
Definition encode_varint (value : N) : bytes := encode_loop 5 value.

(** encoding.rs:187-206.  [value << (7 * i)] on [u32] drops the bits beyond 32;
    a shift amount of 32 or more is a panic in debug builds (and masked to the
    low five bits in release builds): [Panic]. *)
Fixpoint decode_loop (i : N) (acc : N) (buf : bytes) : io (N * bytes) :=
  match buf with
  | [] => Err InvalidData
  | b :: rest =>
      if 32 <=? 7 * i then Panic
      else
        let acc' := N.lor acc (N.shiftl (N.land b 127) (7 * i) mod two32) in
        if N.land b 128 =? 0 then Ok (acc', rest) else decode_loop (i + 1) acc' rest
  end.
Definition decode_varint (buf : bytes) : io (N * bytes) := decode_loop 0 0 buf.

(** [io.read_exact] of [n] bytes. *)
Definition read_exact (n : N) (s : bytes) : io (bytes * bytes) :=
  if n <=? lenN s then Ok (take (N.to_nat n) s, drop (N.to_nat n) s) else Err UnexpectedEof.

(** encoding.rs:50-68.  [buf] holds the bytes read so far, [n] iterations are left. *)
Fixpoint read_varint_loop (n : nat) (buf : bytes) (s : bytes) : io (N * bytes) :=
  match n with
  | O => Err InvalidData
  | S n' =>
      match s with
      | [] => Err UnexpectedEof
      | b :: s' =>
          if N.land b 128 =? 0
          then let! vr := decode_varint (buf ++ [b]) in Ok (vr.1, s')
          else read_varint_loop n' (buf ++ [b]) s'
      end
  end.
Definition read_varint (s : bytes) : io (N * bytes) := read_varint_loop 5 [] s.

(** [u32::from_le_bytes([a, b, c, 0])] *)
Definition le24 (a b c : byte) : N := a + 256 * b + 65536 * c.
Definition to_le24 (n : N) : bytes := [n mod 256; (n / 256) mod 256; (n / 65536) mod 256].

Section Snappy.
  (** The raw snappy codec of the [snap] crate and the masked CRC32C are
      external: [raw_compress], [raw_decompress], [raw_len] ([decompress_len]),
      [crc] (four bytes). *)
  Context (raw_compress : bytes -> bytes) (raw_decompress : bytes -> option bytes)
          (raw_len : bytes -> option N) (crc : bytes -> bytes).

  (** encoding.rs:93-117: the uncompressed length a chunk announces. *)
  Definition chunk_uncompressed_len (ty : byte) (data : bytes) : io N :=
    if ty =? 0 then
      if lenN data <? 4 then Err InvalidData
      else match raw_len (drop 4 data) with Some n => Ok n | None => Err InvalidData end
    else if ty =? 1 then
      if lenN data <? 4 then Err InvalidData else Ok (lenN data - 4)
    else if 128 <=? ty then Ok 0
    else Err InvalidData.

  (** encoding.rs:77-131, the loop: [frame] is the buffer, [ulen] the
      uncompressed length so far.  Every iteration consumes at least four bytes
      of the stream, so fuel [S (length s)] is enough ([OutOfFuel] is excluded in
      the proofs).  The sum of lengths cannot overflow [usize] ([checked_add]):
      it is kept below the expected size. *)
  Fixpoint read_chunks (fuel : nat) (expected : N) (frame : bytes) (ulen : N) (s : bytes)
    : io (bytes * bytes) :=
    if ulen <? expected then
      match fuel with
      | O => Err OutOfFuel
      | S f =>
          let! hs := read_exact 4 s in
          let '(header, s1) := hs in
          match header with
          | [ty; a; b; c] =>
              let chunk_len := le24 a b c in
              if MAX_COMPRESSED_PAYLOAD_SIZE <? lenN frame + 4 + chunk_len then Err InvalidData
              else
                let! ds := read_exact chunk_len s1 in
                let '(data, s2) := ds in
                let! n := chunk_uncompressed_len ty data in
                let ulen' := ulen + n in
                if expected <? ulen' then Err InvalidData
                else read_chunks f expected (frame ++ header ++ data) ulen' s2
          | _ => Panic
          end
      end
    else Ok (frame, s).

  (** The [snap] crate's [FrameDecoder] reading [n] bytes from a complete frame:
      the stream identifier first, then data chunks with checked CRC, skippable
      chunks (0x80-0xfe) ignored.  External crate; modelled after the snappy
      framing format.  Simplification: the crate also refuses chunks of more than
      65536 uncompressed bytes; this reader accepts them. *)
  Definition stream_id : bytes := [255; 6; 0; 0; 115; 78; 97; 80; 112; 89].
  Fixpoint frame_chunks (fuel : nat) (n : N) (out : bytes) (fr : bytes) : option bytes :=
    if n <=? lenN out then Some (take (N.to_nat n) out) else
    match fuel with
    | O => None
    | S f =>
        match fr with
        | ty :: a :: b :: c :: rest =>
            let len := le24 a b c in
            if lenN rest <? len then None else
            let data := take (N.to_nat len) rest in
            let rest' := drop (N.to_nat len) rest in
            if ty =? 0 then
              if len <? 4 then None else
              match raw_decompress (drop 4 data) with
              | Some u => if bool_decide (take 4 data = crc u) then frame_chunks f n (out ++ u) rest' else None
              | None => None
              end
            else if ty =? 1 then
              if len <? 4 then None else
              let u := drop 4 data in
              if bool_decide (take 4 data = crc u) then frame_chunks f n (out ++ u) rest' else None
            else if ty =? 255 then
              if bool_decide (ty :: a :: b :: c :: data = stream_id) then frame_chunks f n out rest' else None
            else if 128 <=? ty then frame_chunks f n out rest'
            else None
        | _ => None
        end
    end.
  Definition frame_decode (n : N) (fr : bytes) : option bytes :=
    if bool_decide (take 10 fr = stream_id) then frame_chunks (length fr) n [] fr else None.

  (** encoding.rs:70-139: the uncompressed bytes, the compressed size and the
      rest of the stream. *)
  Definition read_snappy_frame (expected : N) (s : bytes) : io (bytes * N * bytes) :=
    let! fs := read_chunks (S (length s)) expected [] 0 s in
    let '(frame, s') := fs in
    match frame_decode expected frame with
    | Some u => Ok (u, lenN frame, s')
    | None => Err InvalidData
    end.

  (** encoding.rs:22-48 *)
  Definition decode_payload (s : bytes) : io (bytes * N * bytes) :=
    let! vs := read_varint s in
    let '(size, s1) := vs in
    if MAX_PAYLOAD_SIZE <? size then Err InvalidData
    else if size =? 0 then Ok ([], 0, s1)
    else read_snappy_frame size s1.

  (** The [snap] crate's [FrameEncoder]: nothing for the empty input; otherwise
      the stream identifier and one chunk per block of at most 65536 bytes,
      stored compressed (type 0) only if that saves at least an eighth, else as
      it is (type 1). *)
  Definition MAX_BLOCK_SIZE : N := 65536.
  Definition encode_chunk (b : bytes) : bytes :=
    let z := raw_compress b in
    if lenN z <? lenN b - lenN b / 8
    then 0 :: to_le24 (4 + lenN z) ++ crc b ++ z
    else 1 :: to_le24 (4 + lenN b) ++ crc b ++ b.
  Fixpoint encode_blocks (fuel : nat) (p : bytes) : bytes :=
    match fuel, p with
    | S f, _ :: _ => encode_chunk (take (N.to_nat MAX_BLOCK_SIZE) p)
                     ++ encode_blocks f (drop (N.to_nat MAX_BLOCK_SIZE) p)
    | _, _ => []
    end.
  Definition frame_encode (p : bytes) : bytes :=
    match p with [] => [] | _ => stream_id ++ encode_blocks (length p) p end.

  (** encoding.rs:143-167: the bytes written and the compressed size. *)
  Definition write_payload (p : bytes) : io (bytes * N) :=
    if MAX_PAYLOAD_SIZE - 1024 <? lenN p then Err InvalidData
    else let buf := frame_encode p in Ok (encode_varint (lenN p) ++ buf, lenN buf).

  Section Codec.
    (** SSZ encoding of signed blocks is external. *)
    Context {B : Type} (to_ssz : B -> bytes) (from_ssz : bytes -> option B).

    (** codec.rs:143-168: the bytes of a block response. *)
    Fixpoint write_blocks (bs : list B) : io bytes :=
      match bs with
      | [] => Ok []
      | b :: rest =>
          if MAX_PAYLOAD_SIZE - 1024 <? lenN (to_ssz b) then write_blocks rest
          else
            let! w := write_payload (to_ssz b) in
            let! r := write_blocks rest in
            Ok (0 :: w.1 ++ r)
      end.

    (** codec.rs:269-309 [decode_blocks_response], reading until the end of the
        stream.  Every iteration consumes a byte. *)
    Fixpoint read_blocks (fuel : nat) (acc : list B) (s : bytes) : io (list B) :=
      match s with
      | [] => Ok acc
      | code :: s1 =>
          match fuel with
          | O => Err OutOfFuel
          | S f =>
              let! d := decode_payload s1 in
              let '(payload, _, s2) := d in
              if negb (code =? 0) then read_blocks f acc s2
              else match from_ssz payload with
                   | Some b => read_blocks f (acc ++ [b]) s2
                   | None => Err InvalidData
                   end
          end
      end.
    Definition decode_blocks_response (s : bytes) : io (list B) := read_blocks (length s) [] s.
  End Codec.
End Snappy.
