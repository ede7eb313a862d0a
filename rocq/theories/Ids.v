(** The identifier that the event monitor gives to an aggregate, by which the reports of
    several nodes are brought together.  Models tooling/event-monitor/src/model.rs:9-23,
    97-131.  Simplified: roots contain no character that JSON escapes (they are hexadecimal). *)
From Coq Require Import Ascii String.
From stdpp Require Import pretty sorting.
From Verif Require Export ServeSpec.
Local Open Scope N_scope.

(** model.rs:9-13 *)
Record MCheckpoint := mkMC { mc_root : string; mc_slot : N }.
(** model.rs:17-23 *)
Record MData := mkMD { md_slot : N; md_head : MCheckpoint; md_target : MCheckpoint; md_source : MCheckpoint }.
(** serde_json: a number in decimal *)
Definition dec (n : N) : string := pretty n.
(** serde_json on a checkpoint: the fields in the order of the struct *)
Definition json_checkpoint (c : MCheckpoint) : string :=
  ("{""root"":""" ++ mc_root c ++ """,""slot"":" ++ dec (mc_slot c) ++ "}")%string.
Definition json_data (d : MData) : string :=
  ("{""slot"":" ++ dec (md_slot d) ++ ",""head"":" ++ json_checkpoint (md_head d) ++ ",""target"":" ++ json_checkpoint (md_target d) ++
   ",""source"":" ++ json_checkpoint (md_source d) ++ "}")%string.
Fixpoint json_numbers (l : list N) : string :=
  match l with [] => "]" | [x] => (dec x ++ "]")%string | x :: l' => (dec x ++ "," ++ json_numbers l')%string end.
(** model.rs:100-104, 111-118 *)
Definition canonical_json (d : MData) (participants : list N) : string :=
  ("{""data"":" ++ json_data d ++ ",""participants"":[" ++ json_numbers (merge_sort N.le participants) ++ "}")%string.

(** model.rs:122-131: FNV-1a with 64 bits *)
Definition FNV_OFFSET_BASIS : N := 14695981039346656037.
Definition FNV_PRIME : N := 1099511628211.
Definition fnv_step (h : N) (byte : N) : N := (N.lxor h byte * FNV_PRIME) mod 2 ^ 64.
Definition fnv1a_64 (data : list N) : N := fold_left fnv_step data FNV_OFFSET_BASIS.
(** [as_bytes] of a text in ASCII *)
Definition text_bytes (s : string) : list N := map N_of_ascii (list_ascii_of_string s).
(** model.rs:110-120 *)
Definition aggregate_id (d : MData) (participants : list N) : string :=
  ("0x" ++ hex_digits 16 (fnv1a_64 (text_bytes (canonical_json d participants))) EmptyString)%string.
