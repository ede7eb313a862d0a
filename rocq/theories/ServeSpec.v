(** Vocabulary for the served blocks. *)
From Coq Require Import Ascii String.
From stdpp Require Export pretty.
From Verif Require Export NodeSpec Serve.
Local Open Scope N_scope.

(** The [k] last hexadecimal digits of a number, most significant first. *)
Definition hex_char (d : N) : ascii := ascii_of_N (if d <? 10 then 48 + d else 87 + d).
Fixpoint hex_digits (k : nat) (x : N) (tail : string) : string :=
  match k with
  | O => tail
  | S k' => hex_digits k' (x / 16) (String (hex_char (x mod 16)) tail)
  end.
(** A root as clients write it, and a slot. *)
Definition root_id (r : H256) : string := String "0" (String "x" (hex_digits 64 r EmptyString)).
Definition slot_id (s : N) : string := pretty s.
(** The texts that are ids of blocks: "0x" and 64 hexadecimal digits of either case, or
    a decimal number below 2^64. *)
Definition dec_digit (c : ascii) : Prop := c ∈ list_ascii_of_string "0123456789".
Definition hex_digit (c : ascii) : Prop := c ∈ list_ascii_of_string "0123456789abcdefABCDEF".
Definition decimal_value (s : string) : N :=
  fold_left (fun a c => 10 * a + (N_of_ascii c - 48)) (list_ascii_of_string s) 0.
Definition slot_text (s : string) : Prop :=
  s <> EmptyString /\ Forall dec_digit (list_ascii_of_string s) /\ decimal_value s < two64.
Definition root_text (s : string) : Prop :=
  exists t, s = ("0x" ++ t)%string /\ String.length t = 64%nat /\ Forall hex_digit (list_ascii_of_string t).
