(** Vocabulary for the identifiers of aggregates. *)
From Coq Require Import Ascii String.
From Verif Require Export Ids.
Local Open Scope N_scope.

(** A root without quotation marks, such as "0x" and hexadecimal digits. *)
Definition plain (s : string) : Prop := Forall (fun c => c <> """"%char) (list_ascii_of_string s).
Definition plain_data (d : MData) : Prop := plain (mc_root (md_head d)) /\ plain (mc_root (md_target d)) /\ plain (mc_root (md_source d)).
