(** Requests and responses as bytes on a stream.  Models
    crates/net/p2p/src/req_resp/codec.rs:37-190, 209-241 and messages.rs:5-8, 10-48, 96-142,
    on top of the payloads of [Wire].  The SSZ encodings of the small messages are written
    out after the SSZ rules (libssz is an external crate): containers of fixed size are the
    fields one after the other, and a container with one list is the offset 4 and the items.
    Blocks stay parameters.  A root is its 32 bytes. *)
From Coq Require Import String.
From Verif Require Export Wire.
Local Open Scope N_scope.

(** u64::to_le_bytes, u32::to_le_bytes and back *)
Fixpoint le_bytes (n : nat) (x : N) : bytes := match n with O => [] | S n' => x mod 256 :: le_bytes n' (x / 256) end.
Fixpoint of_le (l : bytes) : N := match l with [] => 0 | b :: l' => b + 256 * of_le l' end.

(** messages.rs:5-8 *)
Definition STATUS_PROTOCOL_V1 : string := "/leanconsensus/req/status/1/ssz_snappy".
Definition BLOCKS_BY_ROOT_PROTOCOL_V1 : string := "/leanconsensus/req/blocks_by_root/1/ssz_snappy".
Definition BLOCKS_BY_RANGE_PROTOCOL_V1 : string := "/leanconsensus/req/blocks_by_range/1/ssz_snappy".

(** crates/common/types/src/checkpoint.rs:22-28 *)
Record WCheckpoint := mkWC { wc_root : bytes; wc_slot : N }.
(** messages.rs:98-102 *)
Record WStatus := mkWS { ws_finalized : WCheckpoint; ws_head : WCheckpoint }.
(** messages.rs:10-15, 130-140 *)
Inductive WRequest := RStatus (s : WStatus) | RByRoot (roots : list bytes) | RByRange (start_slot count : N).

Definition ssz_checkpoint (c : WCheckpoint) : bytes := wc_root c ++ le_bytes 8 (wc_slot c).
Definition ssz_status (s : WStatus) : bytes := ssz_checkpoint (ws_finalized s) ++ ssz_checkpoint (ws_head s).
(** codec.rs:108-112 *)
Definition ssz_request (r : WRequest) : bytes :=
  match r with
  | RStatus s => ssz_status s
  | RByRoot roots => le_bytes 4 4 ++ concat roots
  | RByRange a n => le_bytes 8 a ++ le_bytes 8 n
  end.

Definition get_checkpoint (l : bytes) : WCheckpoint := mkWC (take 32 l) (of_le (drop 32 l)).
Definition get_status (l : bytes) : option WStatus :=
  if lenN l =? 80 then Some (mkWS (get_checkpoint (take 40 l)) (get_checkpoint (drop 40 l))) else None.
Fixpoint groups (k : nat) (l : bytes) : list bytes := match k with O => [] | S k' => take 32 l :: groups k' (drop 32 l) end.
(** A list of at most 1024 roots (messages.rs:104) behind its offset. *)
Definition get_roots (l : bytes) : option (list bytes) :=
  if lenN l <? 4 then None
  else if negb (of_le (take 4 l) =? 4) then None
  else let items := drop 4 l in
    if negb (lenN items mod 32 =? 0) then None
    else if 1024 <? lenN items / 32 then None
    else Some (groups (N.to_nat (lenN items / 32)) items).
Definition get_range (l : bytes) : option (N * N) := if lenN l =? 16 then Some (of_le (take 8 l), of_le (drop 8 l)) else None.
(** codec.rs:50-73: the payload of a request by protocol *)
Definition get_request (protocol : string) (l : bytes) : option WRequest :=
  if decide (protocol = STATUS_PROTOCOL_V1) then RStatus <$> get_status l
  else if decide (protocol = BLOCKS_BY_ROOT_PROTOCOL_V1) then RByRoot <$> get_roots l
  else if decide (protocol = BLOCKS_BY_RANGE_PROTOCOL_V1) then (fun an => RByRange an.1 an.2) <$> get_range l
  else None.
(** messages.rs:106-108: at most 256 bytes *)
Definition get_message (l : bytes) : option bytes := if 256 <? lenN l then None else Some l.
(** messages.rs:112-128; [debug] says whether debug assertions are compiled in *)
Definition error_message (debug : bool) (msg : bytes) : res unit bytes :=
  if debug && (256 <? lenN msg) then Panic else Ok (if 256 <? lenN msg then take 256 msg else msg).

(** messages.rs:17-27, 90-95 *)
Inductive WResponse {B : Type} := WOfStatus (s : WStatus) | WOfBlocks (bs : list B) | WOfError (code : N) (message : bytes).
Arguments WResponse : clear implicits.

Section Codec.
  Context (raw_compress : bytes -> bytes) (raw_decompress : bytes -> option bytes) (raw_len : bytes -> option N) (crc : bytes -> bytes).
  Context {B : Type} (to_ssz : B -> bytes) (from_ssz : bytes -> option B).
  (** codec.rs:97-118 *)
  Definition write_request (r : WRequest) : io bytes := let! w := write_payload raw_compress crc (ssz_request r) in Ok w.1.
  (** codec.rs:37-74, with the rest of the stream *)
  Definition read_request (protocol : string) (s : bytes) : io (WRequest * bytes) :=
    let! d := decode_payload raw_decompress raw_len crc s in
    let '(payload, _, rest) := d in
    match get_request protocol payload with Some r => Ok (r, rest) | None => Err InvalidData end.
  (** codec.rs:120-189 *)
  Definition write_response (r : WResponse B) : io bytes :=
    match r with
    | WOfStatus s => let! w := write_payload raw_compress crc (ssz_status s) in Ok (0 :: w.1)
    | WOfBlocks bs => write_blocks raw_compress crc to_ssz bs
    | WOfError code message => let! w := write_payload raw_compress crc message in Ok (code :: w.1)
    end.
  (** codec.rs:209-241 *)
  Definition decode_status_response (s : bytes) : io (WResponse B) :=
    match s with
    | [] => Err UnexpectedEof
    | code :: s1 =>
        let! d := decode_payload raw_decompress raw_len crc s1 in
        let payload := d.1.1 in
        if negb (code =? 0)
        then match get_message payload with Some m => Ok (WOfError code m) | None => Err InvalidData end
        else match get_status payload with Some st => Ok (WOfStatus st) | None => Err InvalidData end
    end.
  (** codec.rs:76-95 *)
  Definition read_response (protocol : string) (s : bytes) : io (WResponse B) :=
    if decide (protocol = STATUS_PROTOCOL_V1) then decode_status_response s
    else if decide (protocol = BLOCKS_BY_ROOT_PROTOCOL_V1 \/ protocol = BLOCKS_BY_RANGE_PROTOCOL_V1)
    then let! bs := decode_blocks_response raw_decompress raw_len crc from_ssz s in Ok (WOfBlocks bs)
    else Err InvalidData.
End Codec.
