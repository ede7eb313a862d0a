(** Vocabulary for the settings. *)
From Coq Require Import Ascii String.
From Verif Require Export Options TextSpec.
Local Open Scope N_scope.

(** Blanks: spaces, tabulators, line ends. *)
Definition blank (s : string) : Prop := Forall (fun c => N_of_ascii c = 32 \/ 9 <= N_of_ascii c <= 13) (list_ascii_of_string s).
(** A text that neither begins nor ends with a blank. *)
Definition tight (s : string) : Prop :=
  (forall c t, s = String c t -> ~ blank (String c EmptyString)) /\
  (forall t c, s = (t ++ String c EmptyString)%string -> ~ blank (String c EmptyString)).
Definition slashes (k : nat) : string := string_of_list_ascii (replicate k "/"%char).
Definition ends_with (p s : string) : Prop := exists t, s = (t ++ p)%string.
(** "0x", any number of times. *)
Fixpoint ox (k : nat) : string := match k with O => EmptyString | S k' => ("0x" ++ ox k')%string end.
