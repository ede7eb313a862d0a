(** Gossip message identifiers. *)
From Coq Require Import Ascii String.
From Verif Require Import MsgId MsgIdProofs.
Local Open Scope N_scope.

(** ** C76: dropping the duplicates loses no message.  Whatever arrives in whatever order,
    each message that arrived decodes to what a message handed on for the same topic decodes
    to, if no two of the messages give the hash function different inputs of the same hash. *)
Theorem C76_nothing_lost B G A (b_of_ssz : bytes -> option B) (g_of_ssz : bytes -> option G) (a_of_ssz : bytes -> option A)
    raw_decompress raw_len sha arrived topic data :
  (forall t d, (t, d) ∈ arrived -> N.of_nat (String.length t) < 2 ^ 64) ->
  (forall t d t' d', (t, d) ∈ arrived -> (t', d') ∈ arrived ->
     sha (id_preimage raw_decompress raw_len t d) = sha (id_preimage raw_decompress raw_len t' d') ->
     id_preimage raw_decompress raw_len t d = id_preimage raw_decompress raw_len t' d') ->
  (topic, data) ∈ arrived ->
  exists data', (topic, data') ∈ handed_on raw_decompress raw_len sha [] arrived /\
     handle_gossipsub_message b_of_ssz g_of_ssz a_of_ssz raw_decompress raw_len topic data' =
     handle_gossipsub_message b_of_ssz g_of_ssz a_of_ssz raw_decompress raw_len topic data.
Proof. exact (nothing_lost_pf B G A b_of_ssz g_of_ssz a_of_ssz raw_decompress raw_len sha arrived topic data). Qed.
Print Assumptions C76_nothing_lost.

(** Nothing is handed on that did not arrive, and the same content is handed on once per
    topic, in however many different ways it was compressed. *)
Theorem C76_once raw_decompress raw_len sha arrived i j topic data data' u :
  handed_on raw_decompress raw_len sha [] arrived !! i = Some (topic, data) ->
  handed_on raw_decompress raw_len sha [] arrived !! j = Some (topic, data') ->
  raw_len data = Some (lenN u) -> raw_len data' = Some (lenN u) -> lenN u <= 10485760 ->
  raw_decompress data = Some u -> raw_decompress data' = Some u ->
  i = j /\ (topic, data) ∈ arrived.
Proof. exact (once_pf raw_decompress raw_len sha arrived i j topic data data' u). Qed.
Print Assumptions C76_once.

(** Two messages with the same identifier are for the same topic and decompress to the same
    content, or are the same bytes; otherwise they give the hash function two
    different inputs of the same hash. *)
Theorem C76_identifies raw_decompress raw_len sha t d t' d' :
  N.of_nat (String.length t) < 2 ^ 64 -> N.of_nat (String.length t') < 2 ^ 64 ->
  compute_message_id raw_decompress raw_len sha t d = compute_message_id raw_decompress raw_len sha t' d' ->
  (t = t' /\ (d = d' \/ exists u, raw_decompress d = Some u /\ raw_decompress d' = Some u)) \/
  (id_preimage raw_decompress raw_len t d <> id_preimage raw_decompress raw_len t' d' /\
   sha (id_preimage raw_decompress raw_len t d) = sha (id_preimage raw_decompress raw_len t' d')).
Proof. exact (identifies_pf raw_decompress raw_len sha t d t' d'). Qed.
Print Assumptions C76_identifies.

(** Two compressions of the same block, the block's bytes for another topic, and two
    payloads that do not decompress: four of the six are handed on. *)
Example C76_nonvacuous :
  let dec := fun d => match d with 9 :: _ :: u => Some u | _ => None end in
  let len := fun d => match d with 9 :: _ :: u => Some (lenN u) | _ => None end in
  handed_on dec len (fun x => x) []
    [(block_topic, [9; 1; 5; 6]); (block_topic, [9; 2; 5; 6]); (aggregation_topic, [9; 1; 5; 6]); (block_topic, [5; 6]);
     (block_topic, [9; 1; 5; 7]); (block_topic, [5; 6])] =
  [(block_topic, [9; 1; 5; 6]); (aggregation_topic, [9; 1; 5; 6]); (block_topic, [5; 6]); (block_topic, [9; 1; 5; 7])].
Proof. vm_compute. reflexivity. Qed.
