(** Shared data types of the ethlambda model. *)
From stdpp Require Export prelude gmap list sorting.
From Coq Require Export ZArith NArith Lia.
From Coq Require Export ZifyBool ZifyNat ZifyN.
Ltac Zify.zify_post_hook ::= Z.div_mod_to_equations.
Global Open Scope N_scope.
Global Arguments N.add : simpl never.
Global Arguments N.sub : simpl never.
Global Arguments N.mul : simpl never.
Global Arguments N.div : simpl never.
Global Arguments N.modulo : simpl never.
Global Arguments N.leb : simpl never.
Global Arguments N.ltb : simpl never.
Global Arguments N.eqb : simpl never.
Global Arguments N.of_nat : simpl never.
Global Arguments N.to_nat : simpl never.
Global Arguments N.max : simpl never.
Global Arguments N.min : simpl never.
Global Arguments N.pow : simpl never.
Global Arguments N.sqrt : simpl never.

(** crates/common/types/src/primitives.rs, [H256]: a 32-byte hash. Modelled as
    the natural number whose big-endian 32-byte representation it is, so that
    numeric order is the lexicographic byte order used by [Ord].  The bound
    [< 2^256] is not imposed: nothing modelled depends on it. *)
Notation H256 := N (only parsing).
(** [H256::ZERO] *)
Definition ZERO : H256 := 0.

(** [u64]/[usize]: 64-bit machine integers (64-bit target). *)
Definition two64 : N := 18446744073709551616.

(** Index into a list by an [N], without converting huge out-of-range numbers
    to [nat].  Rust: [slice.get(i)]. *)
Definition getN {A} (l : list A) (i : N) : option A :=
  if i <? N.of_nat (length l) then l !! N.to_nat i else None.

(** Length as an [N].  Rust: [.len() as u64]. *)
Definition lenN {A} (l : list A) : N := N.of_nat (length l).

(** crates/common/types/src/checkpoint.rs:22-28 *)
Record Checkpoint := mkCp { cp_root : H256; cp_slot : N }.
Global Instance Checkpoint_eqdec : EqDecision Checkpoint.
Proof. solve_decision. Defined.

(** crates/common/types/src/attestation.rs:24-36 *)
Record AttestationData := mkAD {
  ad_slot : N;
  ad_head : Checkpoint;
  ad_target : Checkpoint;
  ad_source : Checkpoint }.
Global Instance AttestationData_eqdec : EqDecision AttestationData.
Proof. solve_decision. Defined.

(** crates/common/types/src/attestation.rs:116: SSZ bitlist of at most 4096
    bits, as its list of bits.  The bound is not imposed by the type. *)
Notation Bits := (list bool) (only parsing).

(** crates/common/types/src/attestation.rs:100-110 *)
Record AggAtt := mkAtt { at_bits : Bits; at_data : AttestationData }.
Global Instance AggAtt_eqdec : EqDecision AggAtt.
Proof. solve_decision. Defined.

(** crates/common/types/src/block.rs:182-193 *)
Record Header := mkHeader {
  h_slot : N;
  h_proposer : N;
  h_parent : H256;
  h_state_root : H256;
  h_body_root : H256 }.
Global Instance Header_eqdec : EqDecision Header.
Proof. solve_decision. Defined.

(** crates/common/types/src/block.rs:197-208, 246-252.  The body consists of
    its attestation list only. *)
Record Block := mkBlock {
  b_slot : N;
  b_proposer : N;
  b_parent : H256;
  b_state_root : H256;
  b_atts : list AggAtt }.
Global Instance Block_eqdec : EqDecision Block.
Proof. solve_decision. Defined.

(** crates/common/types/src/state.rs:68-78.  52-byte keys as numbers. *)
Record Validator := mkVal { v_att_key : N; v_prop_key : N; v_index : N }.
Global Instance Validator_eqdec : EqDecision Validator.
Proof. solve_decision. Defined.

(** crates/common/types/src/state.rs:16-37; [config] has the single field
    [genesis_time]. *)
Record State := mkState {
  s_genesis_time : N;
  s_slot : N;
  s_header : Header;
  s_justified : Checkpoint;
  s_finalized : Checkpoint;
  s_hist : list H256;
  s_jslots : list bool;
  s_validators : list Validator;
  s_jroots : list H256;
  s_jvals : list bool }.
Global Instance State_eqdec : EqDecision State.
Proof. solve_decision. Defined.

(** crates/common/types/src/state.rs:43, 56, 61-62 *)
Definition HISTORICAL_ROOTS_LIMIT : N := 262144.
Definition VALIDATOR_REGISTRY_LIMIT : N := 4096.
Definition JUSTIFICATION_VALIDATORS_LIMIT : N :=
  HISTORICAL_ROOTS_LIMIT * VALIDATOR_REGISTRY_LIMIT.

(** Result of a Rust function: a value, a returned error, or a panic
    ([unwrap]/[expect]/index out of bounds). *)
Inductive res (E A : Type) : Type :=
| Ok (a : A)
| Err (e : E)
| Panic.
Global Arguments Ok {E A} a.
Global Arguments Err {E A} e.
Global Arguments Panic {E A}.

Definition rbind {E A B} (r : res E A) (f : A -> res E B) : res E B :=
  match r with Ok a => f a | Err e => Err e | Panic => Panic end.
Notation "'let!' x ':=' r 'in' k" := (rbind r (fun x => k))
  (at level 200, x pattern, r at level 100, k at level 200,
   format "'[' 'let!'  x  ':='  r  'in' '//' k ']'").

(** Number of set bits ([count_ones], [filter(|v| **v).count()]). *)
Fixpoint count_true (l : list bool) : N :=
  match l with
  | [] => 0
  | b :: l' => (if b then 1 else 0) + count_true l'
  end.

(** crates/common/types/src/attestation.rs:129-137 [validator_indices]:
    ascending indices of the set bits. *)
Fixpoint indices_from (i : N) (l : list bool) : list N :=
  match l with
  | [] => []
  | b :: l' => if b then i :: indices_from (i + 1) l' else indices_from (i + 1) l'
  end.
Definition validator_indices (l : Bits) : list N := indices_from 0 l.
