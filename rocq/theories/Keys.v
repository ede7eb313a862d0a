(** Keys of the slot-indexed tables: crates/storage/src/store.rs:500-522. *)
From Verif Require Export Types.

(** [u64::to_be_bytes] for [k = 8]; the bytes of an [H256] for [k = 32]: the [k]
    least significant bytes of [n], most significant first. *)
Fixpoint to_be (k : nat) (n : N) : list N :=
  match k with
  | O => []
  | S k' => (n / 256 ^ N.of_nat k') mod 256 :: to_be k' n
  end.
(** [u64::from_be_bytes], [H256::from_slice] *)
Definition of_be (l : list N) : N := fold_left (fun acc b => acc * 256 + b) l 0.

(** store.rs:503-507 *)
Definition encode_slot_root_key (slot : N) (root : H256) : list N := to_be 8 slot ++ to_be 32 root.
(** store.rs:510-514; [try_into] and [from_slice] panic on wrong lengths *)
Definition decode_slot_root_key (bytes : list N) : res unit (N * H256) :=
  if (length bytes <? 8)%nat then Panic
  else if negb (length (drop 8 bytes) =? 32)%nat then Panic
  else Ok (of_be (take 8 bytes), of_be (drop 8 bytes)).
(** store.rs:516-518 *)
Definition encode_block_root_key (slot : N) : list N := to_be 8 slot.

(** Lexicographic order of byte strings, the order of the tables' keys. *)
Fixpoint lex_lt (a b : list N) : Prop :=
  match a, b with
  | [], [] => False
  | [], _ :: _ => True
  | _ :: _, [] => False
  | x :: a', y :: b' => x < y \/ (x = y /\ lex_lt a' b')
  end.
