(** Aggregated signatures: what acceptance means, and that what is made is accepted. *)
From Verif Require Import CryptoSpec CryptoProofs CryptoExamples.
Local Open Scope N_scope.

(** ** C81: a proof accepted for a list of keys, a message and a slot means that every one of
    the keys signed exactly that message for exactly that slot ... *)
Theorem C81_accepted_signed M b pks m slot :
  sound_multisig M -> verify_aggregated_signature M b pks m slot = Ok tt -> forall pk, pk ∈ pks -> signed M pk m slot.
Proof. exact (verify1_sound M b pks m slot). Qed.
Print Assumptions C81_accepted_signed.

(** ... and a block's proof that there are as many bindings as lists of keys, and that the keys
    of each list signed the message and slot at its position. *)
Theorem C81_block_accepted_signed M b pkss bindings :
  sound_multisig M -> verify_type_2_signature M b pkss bindings = Ok tt ->
  length bindings = length pkss /\
  forall i pks m slot pk, pkss !! i = Some pks -> bindings !! i = Some (m, slot) -> pk ∈ pks -> signed M pk m slot.
Proof. exact (verify2_sound M b pkss bindings). Qed.
Print Assumptions C81_block_accepted_signed.

(** ** Whatever the three aggregating functions return is accepted for the keys that went in, in
    any order and multiplicity, with the message and slot asked for. *)
Theorem C81_made_accepted M children pks sigs m slot b all :
  sound_multisig M -> faithful_multisig M ->
  (aggregate_signatures M pks sigs m slot = Ok b /\ same_keys pks all \/
   aggregate_mixed M children pks sigs m slot = Ok b /\ same_keys (concat (map fst children) ++ pks) all \/
   aggregate_proofs M children m slot = Ok b /\ same_keys (concat (map fst children)) all) ->
  verify_aggregated_signature M b all m slot = Ok tt.
Proof.
  intros H1 H2 [[H3 H4]|[[H3 H4]|[H3 H4]]];
    [exact (signatures_accepted M _ _ _ _ _ _ H1 H2 H3 H4)|exact (mixed_accepted M _ _ _ _ _ _ _ H1 H2 H3 H4)
    |exact (proofs_accepted M _ _ _ _ _ H1 H2 H3 H4)].
Qed.
Print Assumptions C81_made_accepted.

(** ** They do return a proof, or fail because it is larger than 512 KiB, when they are given
    valid signatures and accepted proofs: at least one signature, or two proofs. *)
Theorem C81_made M children pks sigs m slot :
  faithful_multisig M ->
  Forall (fun c => verify_aggregated_signature M c.2 c.1 m slot = Ok tt) children ->
  Forall2 (fun pk sg => xmss_valid M pk m slot sg = true) pks sigs ->
  let made r := (exists b : bytes, r = Ok b) \/ r = Err ProofTooBig in
  (pks <> [] -> made (aggregate_signatures M pks sigs m slot)) /\
  (pks <> [] \/ 2 <= lenN children -> made (aggregate_mixed M children pks sigs m slot)) /\
  (2 <= lenN children -> made (aggregate_proofs M children m slot)).
Proof.
  intros H1 H2 H3. split; [|split].
  - exact (signatures_made M pks sigs m slot H1 H3).
  - exact (mixed_made M children pks sigs m slot H1 H2 H3).
  - exact (proofs_made M children m slot H1 H2).
Qed.
Print Assumptions C81_made.

(** ** Accepted proofs can be merged into a block's proof, which is accepted with their keys and
    bindings in the same order. *)
Theorem C81_merge M (l : list (list (PK M) * bytes)) bindings :
  sound_multisig M -> faithful_multisig M -> l <> [] ->
  Forall2 (fun c x => verify_aggregated_signature M c.2 c.1 x.1 x.2 = Ok tt) l bindings ->
  (exists b, merge_type_1s_into_type_2 M l = Ok b /\ verify_type_2_signature M b (map fst l) bindings = Ok tt) \/
  merge_type_1s_into_type_2 M l = Err ProofTooBig.
Proof.
  intros H1 H2 H3 H4. destruct (merged_made M l bindings H2 H3 H4) as [[b Hb]|H]; [left|right; exact H].
  exists b. split; [exact Hb|]. exact (merged_accepted M l bindings b H1 H2 Hb H4).
Qed.
Print Assumptions C81_merge.

(** ** From an accepted block's proof, the component of a message can be split off if exactly one
    has that message, and the result is accepted for that component's keys and slot. *)
Theorem C81_split M b pkss bindings m :
  sound_multisig M -> faithful_multisig M -> verify_type_2_signature M b pkss bindings = Ok tt ->
  (forall b', split_type_2_by_message M b pkss m = Ok b' ->
     exists i pks slot, pkss !! i = Some pks /\ bindings !! i = Some (m, slot) /\
       verify_aggregated_signature M b' pks m slot = Ok tt) /\
  match List.filter (fun x => x.1 =? m) bindings with
  | [] => split_type_2_by_message M b pkss m = Err UnknownMessage
  | [_] => (exists b', split_type_2_by_message M b pkss m = Ok b') \/ split_type_2_by_message M b pkss m = Err ProofTooBig
  | _ => split_type_2_by_message M b pkss m = Err MultipleMessages
  end.
Proof.
  intros H1 H2 H3. split; [intros b'; exact (split_accepted M b pkss bindings m b' H1 H2 H3)|exact (split_made M b pkss bindings m H2 H3)].
Qed.
Print Assumptions C81_split.

(** Keys 1, 2, 3 of the small library: two proofs for the message 7, slot 4 and the message 8,
    slot 5; merged, verified, split again.  Other messages, slots, keys and orders are refused. *)
Definition xc_a : bytes := [7; 4].
Definition xc_b : bytes := [8; 5].
Example C81_nonvacuous :
  sound_multisig tm /\ faithful_multisig tm /\
  aggregate_signatures tm [1; 2] [tm_sig 1 7 4; tm_sig 2 7 4] 7 4 = Ok xc_a /\
  aggregate_signatures tm [3] [tm_sig 3 8 5] 8 5 = Ok xc_b /\
  aggregate_signatures tm [3] [tm_sig 3 8 5] 8 6 = Err ProverFailure /\
  aggregate_mixed tm [([1; 2], xc_a)] [3] [tm_sig 3 7 4] 7 4 = Ok xc_a /\
  aggregate_proofs tm [([1; 2], xc_a)] 7 4 = Err InsufficientChildren /\
  verify_aggregated_signature tm xc_a [2; 1; 1] 7 4 = Ok tt /\
  verify_aggregated_signature tm xc_a [1; 2] 7 5 = Err BindingMismatch /\
  verify_aggregated_signature tm xc_a [1; 200] 7 4 = Err ProofError /\
  merge_type_1s_into_type_2 tm [([1; 2], xc_a); ([3], xc_b)] = Ok [7; 4; 8; 5] /\
  verify_type_2_signature tm [7; 4; 8; 5] [[1; 2]; [3]] [(7, 4); (8, 5)] = Ok tt /\
  verify_type_2_signature tm [7; 4; 8; 5] [[1; 2]; [3]] [(8, 5); (7, 4)] = Err BindingMismatch /\
  verify_type_2_signature tm [7; 4; 8; 5] [[1; 2]; [3]] [(7, 4)] = Err ComponentPubkeyMismatch /\
  split_type_2_by_message tm [7; 4; 8; 5] [[1; 2]; [3]] 8 = Ok xc_b /\
  split_type_2_by_message tm [7; 4; 8; 5] [[1; 2]; [3]] 9 = Err UnknownMessage /\
  split_type_2_by_message tm [7; 4; 7; 5] [[1; 2]; [3]] 7 = Err MultipleMessages.
Proof. split; [exact tm_sound|]. split; [exact tm_faithful|]. vm_compute. done. Qed.
