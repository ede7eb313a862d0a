(** Gossip topics, what a node subscribes to, publishing and receiving.
    Models crates/net/p2p/src/gossipsub/{messages,encoding,handler}.rs and
    crates/net/p2p/src/lib.rs:183-204 and 319-353.  Left out: the gossipsub protocol
    itself (mesh, validation, duplicates), metrics and logging; the SSZ codecs and raw
    snappy are parameters. *)
From Coq Require Import Ascii String.
From stdpp Require Export pretty.
From Verif Require Export Wire.
Local Open Scope N_scope.

(** crates/common/types/src/constants.rs:10 *)
Definition FORK_DIGEST : string := "12345678".
(** messages.rs:4-12 *)
Definition BLOCK_TOPIC_KIND : string := "block".
Definition ATTESTATION_SUBNET_TOPIC_PREFIX : string := "attestation".
Definition AGGREGATION_TOPIC_KIND : string := "aggregation".
(** messages.rs:15-33; the decimal digits of a subnet are [pretty] *)
Definition topic_of_kind (kind : string) : string :=
  ("/leanconsensus/" +:+ FORK_DIGEST +:+ "/" +:+ kind +:+ "/ssz_snappy").
Definition block_topic : string := topic_of_kind BLOCK_TOPIC_KIND.
Definition aggregation_topic : string := topic_of_kind AGGREGATION_TOPIC_KIND.
Definition attestation_subnet_topic (subnet_id : N) : string :=
  topic_of_kind (ATTESTATION_SUBNET_TOPIC_PREFIX +:+ "_" +:+ pretty subnet_id).

(** lib.rs:183-204; the remainder by zero panics *)
Definition attestation_subscription_subnets (validator_ids : list N) (committee_count : N)
    (is_aggregator : bool) (aggregate_subnet_ids : option (list N)) : res unit (gset N) :=
  let! subnets := (match validator_ids with
                   | [] => Ok ∅
                   | _ => if committee_count =? 0 then Panic
                          else Ok (list_to_set (map (fun vid => vid mod committee_count) validator_ids))
                   end : res unit (gset N)) in
  if is_aggregator then
    let subnets := match aggregate_subnet_ids with Some ids => subnets ∪ list_to_set ids | None => subnets end in
    Ok (if bool_decide (subnets = ∅) then {[ 0 ]} else subnets)
  else Ok subnets.
(** lib.rs:319-353: the topics subscribed to *)
Definition subscribed_topics (subnets : gset N) : list string :=
  block_topic :: aggregation_topic :: map attestation_subnet_topic (elements subnets).
(** lib.rs:348-353 *)
Definition attestation_topics (subnets : gset N) : gmap N string := set_to_map (fun k => (k, attestation_subnet_topic k)) subnets.

(** [str::split] on one character: the pieces between the separators. *)
Fixpoint split_on (c : ascii) (s : string) : list string :=
  match s with
  | EmptyString => [EmptyString]
  | String a s' =>
      if Ascii.eqb a c then EmptyString :: split_on c s'
      else match split_on c s' with
           | x :: xs => String a x :: xs
           | [] => [String a EmptyString]
           end
  end.

Inductive topic_class := KBlock | KAggregation | KAttestation.
(** handler.rs:30-32, 66, 98, 132-134 *)
Definition classify (topic : string) : option topic_class :=
  match split_on "/" topic !! 3%nat with
  | Some kind =>
      if String.eqb kind BLOCK_TOPIC_KIND then Some KBlock
      else if String.eqb kind AGGREGATION_TOPIC_KIND then Some KAggregation
      else if String.prefix ATTESTATION_SUBNET_TOPIC_PREFIX kind then Some KAttestation
      else None
  | None => None
  end.

Section Gossip.
  (** Blocks, aggregated votes, votes; the validator of a vote; their SSZ codecs; raw
      snappy with [decompress_len] *)
  Context {B G A : Type} (validator_of : A -> N).
  Context (b_ssz : B -> bytes) (g_ssz : G -> bytes) (a_ssz : A -> bytes).
  Context (b_of_ssz : bytes -> option B) (g_of_ssz : bytes -> option G) (a_of_ssz : bytes -> option A).
  Context (raw_compress : bytes -> bytes) (raw_decompress : bytes -> option bytes) (raw_len : bytes -> option N).

  Inductive Msg := MBlock (b : B) | MAggregation (g : G) | MAttestation (a : A).

  (** encoding.rs:27-38 *)
  Definition decompress_message (data : bytes) : option bytes :=
    match raw_len data with
    | None => None
    | Some n => if MAX_PAYLOAD_SIZE <? n then None else raw_decompress data
    end.
  (** encoding.rs:41-49; the encoder refuses inputs of 2^32 bytes and more *)
  Definition compress_message (data : bytes) : res unit bytes :=
    if two32 <=? lenN data then Panic else Ok (raw_compress data).

  (** handler.rs:171-178, 200-225, 138-157: the topic and the payload *)
  Definition publish (subnets : gset N) (committee_count : N) (m : Msg) : res unit (string * bytes) :=
    match m with
    | MBlock b => let! z := compress_message (b_ssz b) in Ok (block_topic, z)
    | MAggregation g => let! z := compress_message (g_ssz g) in Ok (aggregation_topic, z)
    | MAttestation a =>
        if committee_count =? 0 then Panic
        else
          let subnet_id := validator_of a mod committee_count in
          let! z := compress_message (a_ssz a) in
          Ok (default (attestation_subnet_topic subnet_id) (attestation_topics subnets !! subnet_id), z)
    end.
  (** handler.rs:21-136: the message handed to the blockchain actor *)
  Definition handle_gossipsub_message (topic : string) (data : bytes) : option Msg :=
    match classify topic with
    | Some KBlock => u ← decompress_message data; MBlock <$> b_of_ssz u
    | Some KAggregation => u ← decompress_message data; MAggregation <$> g_of_ssz u
    | Some KAttestation => u ← decompress_message data; MAttestation <$> a_of_ssz u
    | None => None
    end.
End Gossip.
Arguments Msg : clear implicits.
Arguments MBlock {B G A} b.
Arguments MAggregation {B G A} g.
Arguments MAttestation {B G A} a.
