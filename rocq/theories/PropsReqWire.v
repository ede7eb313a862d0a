(** Requests and responses on a stream. *)
From Coq Require Import String.
From Verif Require Import ReqWireSpec ReqWireProofs WireMore.
Local Open Scope N_scope.

(** ** C94 requests and responses arrive as they were sent *)

(** Every request that is sent over its protocol is received as it was, and nothing behind it
    is read. *)
Theorem C94_request rc rd rl crc r rest : snappy_ok rc rd rl crc -> a_request r ->
  exists w, write_request rc crc r = Ok w /\ read_request rd rl crc (protocol_of r) (w ++ rest) = Ok (r, rest).
Proof. exact (request_pf rc rd rl crc r rest). Qed.
Print Assumptions C94_request.

(** Whatever bytes a peer sends: a request that is accepted is one for the protocol of the
    stream with at most 1024 roots, and its payload is the only one that says so. *)
Theorem C94_accepted rd rl crc protocol s r rest : (forall z u, bytes_ok z -> rd z = Some u -> bytes_ok u) -> bytes_ok s ->
  read_request rd rl crc protocol s = Ok (r, rest) ->
  protocol = protocol_of r /\ a_request r /\ exists n, decode_payload rd rl crc s = Ok (ssz_request r, n, rest).
Proof. exact (accepted_pf rd rl crc protocol s r rest). Qed.
Print Assumptions C94_accepted.

Theorem C94_total rd rl crc protocol s : read_request rd rl crc protocol s <> Panic /\ read_request rd rl crc protocol s <> Err OutOfFuel.
Proof. exact (request_total_pf rd rl crc protocol s). Qed.
Print Assumptions C94_total.

(** A status and a refusal arrive as they were sent. *)
Theorem C94_status rc rd rl crc B to_ssz (from_ssz : bytes -> option B) s rest : snappy_ok rc rd rl crc -> a_status s ->
  exists w, write_response rc crc to_ssz (@WOfStatus B s) = Ok w /\
    read_response rd rl crc from_ssz "/leanconsensus/req/status/1/ssz_snappy" (w ++ rest) = Ok (WOfStatus s).
Proof. exact (status_response_pf rc rd rl crc to_ssz from_ssz s rest). Qed.
Print Assumptions C94_status.

(** Of refusals this is proved for the status protocol. *)
Theorem C94_refusal_partial rc rd rl crc B to_ssz (from_ssz : bytes -> option B) code message rest : snappy_ok rc rd rl crc -> a_message message -> code <> 0 ->
  exists w, write_response rc crc to_ssz (@WOfError B code message) = Ok w /\
    read_response rd rl crc from_ssz "/leanconsensus/req/status/1/ssz_snappy" (w ++ rest) = Ok (WOfError code message).
Proof. exact (error_response_pf rc rd rl crc to_ssz from_ssz code message rest). Qed.
Print Assumptions C94_refusal_partial.

(** Over the protocols for blocks, every refusal arrives as an answer without blocks. *)
Theorem C94_refusal_refuted rc rd rl crc B to_ssz (from_ssz : bytes -> option B) protocol code message :
  snappy_ok rc rd rl crc -> a_message message -> code <> 0 -> for_blocks protocol ->
  exists w, write_response rc crc to_ssz (@WOfError B code message) = Ok w /\
    read_response rd rl crc from_ssz protocol w = Ok (WOfBlocks []).
Proof. exact (refusal_pf rc rd rl crc to_ssz from_ssz protocol code message). Qed.
Print Assumptions C94_refusal_refuted.

(** Blocks arrive as they were sent, over both protocols, except those that are too large. *)
Theorem C94_blocks rc rd rl crc B to_ssz from_ssz protocol bs :
  snappy_ok rc rd rl crc -> (forall b : B, from_ssz (to_ssz b) = Some b) -> for_blocks protocol ->
  exists w, write_response rc crc to_ssz (WOfBlocks bs) = Ok w /\
    read_response rd rl crc from_ssz protocol w = Ok (WOfBlocks (List.filter (fun b => lenN (to_ssz b) <=? 10 * 1024 * 1024 - 1024) bs)).
Proof. exact (blocks_response_pf rc rd rl crc to_ssz from_ssz protocol bs). Qed.
Print Assumptions C94_blocks.

(** Whatever bytes a peer answers to a status request: what is accepted is a status, or a
    refusal with a code other than that of success and at most 256 bytes of text. *)
Theorem C94_status_accepted rd rl crc B (from_ssz : bytes -> option B) s r : (forall z u, bytes_ok z -> rd z = Some u -> bytes_ok u) -> bytes_ok s ->
  read_response rd rl crc from_ssz "/leanconsensus/req/status/1/ssz_snappy" s = Ok r ->
  match r with WOfStatus st => a_status st | WOfError code message => 0 < code < 256 /\ a_message message | WOfBlocks _ => False end.
Proof. exact (status_accepted_pf (fun x => x) rd rl crc from_ssz s r). Qed.
Print Assumptions C94_status_accepted.

(** The text of a refusal: unchanged up to 256 bytes; a longer one is cut in a release build
    and stops a debug build. *)
Theorem C94_message m :
  (exists m', error_message false m = Ok m' /\ a_message m' /\ m' `prefix_of` m) /\
  (a_message m -> forall debug, error_message debug m = Ok m) /\ (~ a_message m -> error_message true m = Panic).
Proof. exact (message_pf m). Qed.
Print Assumptions C94_message.

Definition xq_status : WStatus := mkWS (mkWC (replicate 32 7) 300) (mkWC (map N.of_nat (seq 1 32)) (2 ^ 64 - 1)).
Definition xq_roots : WRequest := RByRoot [replicate 32 7; map N.of_nat (seq 1 32)].
Example C94_case :
  a_request (RStatus xq_status) /\ a_request xq_roots /\ a_request (RByRange 65536 1024) /\
  ssz_request (RByRange 65536 1024) = [0; 0; 1; 0; 0; 0; 0; 0; 0; 4; 0; 0; 0; 0; 0; 0] /\
  take 5 (ssz_request xq_roots) = [4; 0; 0; 0; 7] /\ lenN (ssz_request xq_roots) = 68 /\ lenN (ssz_status xq_status) = 80.
Proof.
  split; [repeat split; try (refine (bool_decide_unpack _ _); vm_compute; exact I)|].
  split; [split; [cbn; lia|repeat constructor; try (refine (bool_decide_unpack _ _); vm_compute; exact I)]|]. repeat split.
Qed.
(** Payloads that are not accepted: a wrong offset, half a root, a status that is too short, an
    unknown protocol, 1025 roots. *)
Example C94_refused_case :
  get_request BLOCKS_BY_ROOT_PROTOCOL_V1 (le_bytes 4 5 ++ replicate 32 7) = None /\
  get_request BLOCKS_BY_ROOT_PROTOCOL_V1 (le_bytes 4 4 ++ replicate 16 7) = None /\
  get_request STATUS_PROTOCOL_V1 (replicate 79 0) = None /\
  get_request "/leanconsensus/req/status/2/ssz_snappy" (ssz_status xq_status) = None /\
  get_request BLOCKS_BY_ROOT_PROTOCOL_V1 (le_bytes 4 4 ++ replicate (N.to_nat (1025 * 32)) 7) = None.
Proof. repeat split; vm_compute; reflexivity. Qed.
(** The codec of the examples meets the hypotheses. *)
Example C94_codec : snappy_ok toy_compress toy_decompress toy_len toy_crc /\ (forall z u, bytes_ok z -> toy_decompress z = Some u -> bytes_ok u).
Proof.
  split; [exact toy_ok|]. intros z u Hz H. unfold toy_decompress in H. destruct z as [|a z]; [done|]. apply Forall_cons in Hz as [_ Hz].
  destruct a as [|[p|p|]]; [by injection H as <-|done|done|]. destruct z as [|x [|n [|]]]; try done. injection H as <-. apply Forall_cons in Hz as [Hx _]. by apply Forall_replicate.
Qed.
(** One exchange as bytes. *)
Example C94_bytes_case : exists w, write_request toy_compress toy_crc (RByRange 3 2) = Ok w /\ take 1 w = [16] /\
  read_request toy_decompress toy_len toy_crc BLOCKS_BY_RANGE_PROTOCOL_V1 (w ++ [1; 2]) = Ok (RByRange 3 2, [1; 2]) /\
  read_request toy_decompress toy_len toy_crc STATUS_PROTOCOL_V1 w = Err InvalidData.
Proof. eexists. split; [vm_compute; reflexivity|]. repeat split; vm_compute; reflexivity. Qed.
