(** Gossip: who subscribes to what, where messages are published, and that what is
    published is received. *)
From Coq Require Import String.
From Verif Require Import GossipProofs.
Local Open Scope N_scope.

(** ** C54: the subnets of the own validators, when aggregating also the configured
    ones, and subnet 0 for an aggregator with neither. *)
Theorem C54_subnets vs c agg extra : 1 <= c ->
  exists S, attestation_subscription_subnets vs c agg extra = Ok S /\
  forall k, k ∈ S <->
    (exists v, v ∈ vs /\ k = v mod c) \/
    (agg = true /\ k ∈ default [] extra) \/
    (agg = true /\ vs = [] /\ default [] extra = [] /\ k = 0).
Proof. exact (C54_subnets_pf vs c agg extra). Qed.
Print Assumptions C54_subnets.

(** A vote goes to the topic of its validator's subnet, one of [c], whatever the sender
    is subscribed to. *)
Theorem C54_published B G A validator_of b_ssz g_ssz a_ssz raw_compress S c (v : A) :
  1 <= c -> lenN (a_ssz v) < 2 ^ 32 ->
  exists z, publish (B := B) (G := G) validator_of b_ssz g_ssz a_ssz raw_compress S c (MAttestation v) =
      Ok (attestation_subnet_topic (validator_of v mod c), z) /\ validator_of v mod c < c.
Proof. exact (C54_vote_topic_pf validator_of b_ssz g_ssz a_ssz raw_compress S c v). Qed.
Print Assumptions C54_published.

(** A node hears the topic of a subnet if and only if it subscribed to the subnet;
    all nodes hear blocks and aggregates. *)
Theorem C54_heard S k :
  (attestation_subnet_topic k ∈ subscribed_topics S <-> k ∈ S) /\
  block_topic ∈ subscribed_topics S /\ aggregation_topic ∈ subscribed_topics S.
Proof. split; [exact (subscribed_att S k)|]. split; [left|right; left]. Qed.
Print Assumptions C54_heard.

(** Different subnets have different topics, none of them that of blocks or
    aggregates. *)
Theorem C54_topics i j :
  (attestation_subnet_topic i = attestation_subnet_topic j -> i = j) /\
  attestation_subnet_topic i <> block_topic /\ attestation_subnet_topic i <> aggregation_topic /\
  block_topic <> aggregation_topic.
Proof. exact (C54_topics_pf i j). Qed.
Print Assumptions C54_topics.

(** The validators whose votes the early aggregation waits for (C55) are those whose
    votes the node hears. *)
Theorem C54_expected S n c v : v < n ->
  N.to_nat v ∈ assigned n c (elements S) <-> attestation_subnet_topic (v mod c) ∈ subscribed_topics S.
Proof. exact (expected_heard S n c v). Qed.
Print Assumptions C54_expected.

Example C54_nonvacuous :
  match attestation_subscription_subnets [5; 9; 14] 4 true (Some [3]) with
  | Ok ss => bool_decide (ss = {[ 1; 2; 3 ]}) && bool_decide (subscribed_topics ss !! 2%nat = Some (attestation_subnet_topic 1))
  | _ => false end = true /\
  match attestation_subscription_subnets [] 4 true None with Ok ss => bool_decide (ss = {[ 0 ]}) | _ => false end = true /\
  match attestation_subscription_subnets [] 4 false (Some [3]) with Ok ss => bool_decide (ss = ∅) | _ => false end = true /\
  attestation_subnet_topic 12 = "/leanconsensus/12345678/attestation_12/ssz_snappy"%string.
Proof. vm_compute. done. Qed.

(** ** C68: what one node publishes another one receives, as the same message, if it is
    not larger than 10 MiB. *)
Theorem C68_roundtrip B G A validator_of b_ssz g_ssz a_ssz b_of_ssz g_of_ssz a_of_ssz raw_compress raw_decompress raw_len crc
    S c (m : Msg B G A) :
  snappy_ok raw_compress raw_decompress raw_len crc ->
  (forall b, b_of_ssz (b_ssz b) = Some b) -> (forall g, g_of_ssz (g_ssz g) = Some g) ->
  (forall a, a_of_ssz (a_ssz a) = Some a) ->
  1 <= c -> lenN (ssz b_ssz g_ssz a_ssz m) < 2 ^ 32 ->
  exists t z, publish validator_of b_ssz g_ssz a_ssz raw_compress S c m = Ok (t, z) /\
    handle_gossipsub_message b_of_ssz g_of_ssz a_of_ssz raw_decompress raw_len t z =
    if lenN (ssz b_ssz g_ssz a_ssz m) <=? 10 * 1024 * 1024 then Some m else None.
Proof.
  exact (received validator_of b_ssz g_ssz a_ssz b_of_ssz g_of_ssz a_of_ssz raw_compress raw_decompress raw_len crc S c m).
Qed.
Print Assumptions C68_roundtrip.

(** Whatever arrives on a topic, it is taken for a block only on the block topic, for a
    vote only on a subnet topic, for an aggregate only on the aggregation topic. *)
Theorem C68_kind B G A b_of_ssz g_of_ssz a_of_ssz raw_decompress raw_len S t z (m : Msg B G A) :
  handle_gossipsub_message b_of_ssz g_of_ssz a_of_ssz raw_decompress raw_len t z = Some m ->
  t ∈ subscribed_topics S ->
  match m with
  | MBlock _ => t = block_topic
  | MAggregation _ => t = aggregation_topic
  | MAttestation _ => exists k, k ∈ S /\ t = attestation_subnet_topic k
  end.
Proof. exact (kind_of_message b_of_ssz g_of_ssz a_of_ssz raw_decompress raw_len S t z m). Qed.
Print Assumptions C68_kind.

(** Nothing above 10 MiB is ever unpacked. *)
Theorem C68_bounded B G A b_of_ssz g_of_ssz a_of_ssz raw_decompress raw_len t z n :
  raw_len z = Some n -> 10 * 1024 * 1024 < n ->
  handle_gossipsub_message (B := B) (G := G) (A := A) b_of_ssz g_of_ssz a_of_ssz raw_decompress raw_len t z = None.
Proof. exact (too_large b_of_ssz g_of_ssz a_of_ssz raw_decompress raw_len t z n). Qed.
Print Assumptions C68_bounded.

Example C68_nonvacuous :
  snappy_ok toy_compress toy_decompress toy_len toy_crc /\
  map (fun m => match t_pub {[ 1 ]} 4 m with Ok (t, z) => (t, t_rec t z) | _ => (""%string, None) end)
    [MBlock 7; MAggregation 8; MAttestation (5, 9); MAttestation (6, 9)] =
  [(block_topic, Some (MBlock 7)); (aggregation_topic, Some (MAggregation 8));
   (attestation_subnet_topic 1, Some (MAttestation (5, 9))); (attestation_subnet_topic 2, Some (MAttestation (6, 9)))] /\
  toy_len [1; 4; 10485761] = Some 10485761.
Proof. split; [exact toy_ok|]. split; [vm_compute; reflexivity|]. unfold toy_len. cbn. unfold lenN. rewrite replicate_length. by rewrite N2Nat.id. Qed.
