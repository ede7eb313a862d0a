(** Vocabulary for roots and keys as text. *)
From Coq Require Import Ascii String.
From Verif Require Export ServeSpec Text.
Local Open Scope N_scope.

(** Capital letters to small ones. *)
Definition lower (c : ascii) : ascii :=
  let n := N_of_ascii c in if (65 <=? n) && (n <=? 90) then ascii_of_N (n + 32) else c.
Fixpoint lowercase (s : string) : string :=
  match s with EmptyString => EmptyString | String c s' => String (lower c) (lowercase s') end.
(** [k] bytes. *)
Definition nbytes (k : nat) (l : list N) : Prop := length l = k /\ Forall (fun b => b < 256) l.
(** The text is the [2 * k] hexadecimal digits of the bytes, in letters of either case, with
    or without "0x" before them. *)
Definition denotes (k : nat) (s : string) (l : list N) : Prop :=
  nbytes k l /\ exists t, (s = t \/ s = ("0x" ++ t)%string) /\ lowercase t = hex_digits (2 * k) (be l) EmptyString.
(** The same text but for letter case and "0x". *)
Definition same_text (s s' : string) : Prop :=
  exists t t', (s = t \/ s = ("0x" ++ t)%string) /\ (s' = t' \/ s' = ("0x" ++ t')%string) /\ lowercase t = lowercase t'.
