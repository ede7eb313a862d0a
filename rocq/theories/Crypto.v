(** Aggregation, merging, splitting and verification of signatures over the lean-multisig
    library.  Models crates/common/crypto/src/lib.rs:110-506; the library and the XMSS scheme
    are parameters.  Simplified: errors carry no values; the initialisation of the library is
    left out; the build without the feature "shadow-integration" (which accepts everything). *)
From Verif Require Export Types.
Local Open Scope N_scope.

Notation bytes := (list N).
(** What a component of a proof binds (lean-multisig, [info]) *)
Record Info (PK : Type) := mkInfo { in_msg : H256; in_slot : N; in_pks : list PK }.
Global Arguments mkInfo {PK} _ _ _.
Global Arguments in_msg {PK} _.
Global Arguments in_slot {PK} _.
Global Arguments in_pks {PK} _.

(** lib.rs:6-11: the library and the codecs of its two kinds of proof, which are stored
    without the public keys *)
Record Multisig := mkMultisig {
  PK : Type; XSig : Type; T1 : Type; T2 : Type;
  xmss_valid : PK -> H256 -> N -> XSig -> bool;
  t1_info : T1 -> Info PK;
  t2_infos : T2 -> list (Info PK);
  t1_compress : T1 -> bytes;
  t1_decompress : bytes -> list PK -> option T1;
  t2_compress : T2 -> bytes;
  t2_decompress : bytes -> list (list PK) -> option T2;
  lm_aggregate : list T1 -> list (PK * XSig) -> H256 -> N -> option T1;
  lm_verify1 : T1 -> bool;
  lm_merge : list T1 -> option T2;
  lm_verify2 : T2 -> bool;
  lm_split : T2 -> nat -> option T1 }.

(** lib.rs:38-70 *)
Inductive AggregationError :=
| EmptyInput | CountMismatch | ProofTooBig | ChildDeserializationFailed | ADeserializationFailed
| InsufficientChildren | UnknownMessage | MultipleMessages | ProverFailure.
(** lib.rs:73-102 *)
Inductive VerificationError :=
| VDeserializationFailed | ProofError | BindingMismatch | ComponentPubkeyMismatch | Type2ComponentCountMismatch.

(** ByteList512KiB *)
Definition PROOF_LIMIT : N := 524288.

Section Crypto.
  Context (M : Multisig).
  Local Notation PK := (PK M).

  Definition of_option {Er A} (e : Er) (o : option A) : res Er A := match o with Some x => Ok x | None => Err e end.
  Fixpoint collect {Er A B} (f : A -> res Er B) (l : list A) : res Er (list B) :=
    match l with
    | [] => Ok []
    | x :: l' => let! y := f x in let! ys := collect f l' in Ok (y :: ys)
    end.
  (** lib.rs:119-127 *)
  Definition decompress_type1 (c : list PK * bytes) : res AggregationError (T1 M) :=
    of_option ChildDeserializationFailed (t1_decompress M c.2 c.1).
  (** lib.rs:129-139 *)
  Definition to_byte_list (b : bytes) : res AggregationError bytes := if lenN b <=? PROOF_LIMIT then Ok b else Err ProofTooBig.

  (** lib.rs:153-195 *)
  Definition aggregate_signatures (pks : list PK) (sigs : list (XSig M)) (m : H256) (slot : N) : res AggregationError bytes :=
    if negb (lenN pks =? lenN sigs) then Err CountMismatch
    else if lenN pks =? 0 then Err EmptyInput
    else let! t := of_option ProverFailure (lm_aggregate M [] (zip pks sigs) m slot) in
         to_byte_list (t1_compress M t).
  (** lib.rs:204-262 *)
  Definition aggregate_mixed (children : list (list PK * bytes)) (pks : list PK) (sigs : list (XSig M)) (m : H256) (slot : N)
    : res AggregationError bytes :=
    if negb (lenN pks =? lenN sigs) then Err CountMismatch
    else if (lenN pks =? 0) && (lenN children <? 2) then Err InsufficientChildren
    else let! cs := collect decompress_type1 children in
         let! t := of_option ProverFailure (lm_aggregate M cs (zip pks sigs) m slot) in
         to_byte_list (t1_compress M t).
  (** lib.rs:268-310 *)
  Definition aggregate_proofs (children : list (list PK * bytes)) (m : H256) (slot : N) : res AggregationError bytes :=
    if lenN children <? 2 then Err InsufficientChildren
    else let! cs := collect decompress_type1 children in
         let! t := of_option ProverFailure (lm_aggregate M cs [] m slot) in
         to_byte_list (t1_compress M t).
  (** lib.rs:318-349 *)
  Definition verify_aggregated_signature (b : bytes) (pks : list PK) (m : H256) (slot : N) : res VerificationError unit :=
    let! t := of_option VDeserializationFailed (t1_decompress M b pks) in
    if negb (in_msg (t1_info M t) =? m) || negb (in_slot (t1_info M t) =? slot) then Err BindingMismatch
    else if lm_verify1 M t then Ok tt else Err ProofError.

  (** lib.rs:363-398 *)
  Definition merge_type_1s_into_type_2 (type_1s : list (list PK * bytes)) : res AggregationError bytes :=
    if lenN type_1s =? 0 then Err EmptyInput
    else let! ts := collect decompress_type1 type_1s in
         let! t := of_option ProverFailure (lm_merge M ts) in
         to_byte_list (t2_compress M t).
  (** lib.rs:405-457 *)
  Definition verify_type_2_signature (b : bytes) (pkss : list (list PK)) (bindings : list (H256 * N)) : res VerificationError unit :=
    if negb (lenN bindings =? lenN pkss) then Err ComponentPubkeyMismatch
    else let! t := of_option VDeserializationFailed (t2_decompress M b pkss) in
         if negb (lenN (t2_infos M t) =? lenN bindings) then Err Type2ComponentCountMismatch
         else if negb (forallb (fun x => (in_msg x.2 =? x.1.1) && (in_slot x.2 =? x.1.2)) (zip bindings (t2_infos M t)))
         then Err BindingMismatch
         else if lm_verify2 M t then Ok tt else Err ProofError.
  (** lib.rs:490-495: the components bound to the message *)
  Definition matching (m : H256) (l : list (Info PK)) : list nat :=
    omap (fun x => x) (imap (fun i x => if in_msg x =? m then Some i else None) l).
  (** lib.rs:467-506 *)
  Definition split_type_2_by_message (b : bytes) (pkss : list (list PK)) (m : H256) : res AggregationError bytes :=
    let! t := of_option ADeserializationFailed (t2_decompress M b pkss) in
    match matching m (t2_infos M t) with
    | [i] => let! c := of_option ProverFailure (lm_split M t i) in to_byte_list (t1_compress M c)
    | [] => Err UnknownMessage
    | _ => Err MultipleMessages
    end.
End Crypto.
