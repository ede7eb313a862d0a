(** The identifiers of aggregates in the event monitor. *)
From Coq Require Import Ascii String.
From Verif Require Import IdsSpec IdsProofs.
Local Open Scope N_scope.

(** ** C93 the identifier of an aggregate *)

(** In full: two reports of aggregates get the same identifier exactly if they are about the
    same vote and the same participants, in whatever order these are listed.  The text that
    is hashed has this property. *)
Theorem C93_text_partial d l d' l' : plain_data d -> plain_data d' ->
  canonical_json d l = canonical_json d' l' <-> d = d' /\ Permutation l l'.
Proof. exact (canonical_pf d l d' l'). Qed.
Print Assumptions C93_text_partial.

(** So the order in which a node lists the participants does not matter. *)
Theorem C93_same d l l' : Permutation l l' -> aggregate_id d l = aggregate_id d l'.
Proof. exact (same_pf d l l'). Qed.
Print Assumptions C93_same.

(** Identifiers are different for sure if the texts differ in a single character, like a
    slot or participant in one digit. *)
Theorem C93_one_partial d l d' l' a x y b :
  canonical_json d l = (a ++ String x b)%string -> canonical_json d' l' = (a ++ String y b)%string -> x <> y ->
  aggregate_id d l <> aggregate_id d' l'.
Proof. exact (one_place d l d' l' a x y b). Qed.
Print Assumptions C93_one_partial.

(** Every identifier is 0x and sixteen hexadecimal digits. *)
Theorem C93_shape d l : exists h, h < 2 ^ 64 /\ aggregate_id d l = ("0x" ++ hex_digits 16 h "")%string.
Proof. exact (shape_pf d l). Qed.
Print Assumptions C93_shape.

(** Votes for different heads, on which everything else agrees, with the same identifier:
    the monitor takes them for one aggregate. *)
Definition xi_cp (root : string) (slot : N) : MCheckpoint := mkMC ("0x000000000000000000000000000000000000000000000000" ++ root)%string slot.
Definition xi_data (root : string) : MData := mkMD 5 (xi_cp root 4) (xi_cp "0000000000000003" 3) (xi_cp "0000000000000000" 0).
Theorem C93_collision_refuted : exists d d' l, plain_data d /\ plain_data d' /\ mc_root (md_head d) <> mc_root (md_head d') /\
  String.length (mc_root (md_head d)) = 66%nat /\ String.length (mc_root (md_head d')) = 66%nat /\
  md_slot d = md_slot d' /\ md_target d = md_target d' /\ md_source d = md_source d' /\ aggregate_id d l = aggregate_id d' l.
Proof.
  exists (xi_data "5133c2f11240832a"), (xi_data "5715fc676d053b76"), [0; 2; 3].
  split; [repeat split; refine (bool_decide_unpack _ _); vm_compute; exact I|].
  split; [repeat split; refine (bool_decide_unpack _ _); vm_compute; exact I|].
  split; [discriminate|]. repeat split; vm_compute; reflexivity.
Qed.
Print Assumptions C93_collision_refuted.

(** The text and the identifier of an aggregate of three votes, listed out of order. *)
Example C93_case :
  canonical_json (mkMD 12 (mkMC "0xab" 11) (mkMC "0xcd" 9) (mkMC "0xef" 6)) [3; 0; 10] =
    "{""data"":{""slot"":12,""head"":{""root"":""0xab"",""slot"":11},""target"":{""root"":""0xcd"",""slot"":9},""source"":{""root"":""0xef"",""slot"":6}},""participants"":[0,3,10]}"%string /\
  aggregate_id (mkMD 12 (mkMC "0xab" 11) (mkMC "0xcd" 9) (mkMC "0xef" 6)) [3; 0; 10] = "0xaf84a0ac7e05a746"%string /\
  plain_data (mkMD 12 (mkMC "0xab" 11) (mkMC "0xcd" 9) (mkMC "0xef" 6)).
Proof. split; [vm_compute; reflexivity|]. split; [vm_compute; reflexivity|]. repeat split; refine (bool_decide_unpack _ _); vm_compute; exact I. Qed.
(** The case of one differing character. *)
Example C93_one_case : exists a x y b,
  canonical_json (xi_data "0000000000000001") [7] = (a ++ String x b)%string /\ canonical_json (xi_data "0000000000000001") [8] = (a ++ String y b)%string /\ x <> y.
Proof. exists (substring 0 321 (canonical_json (xi_data "0000000000000001") [7])), "7"%char, "8"%char, "]}"%string. split; [vm_compute; reflexivity|]. split; [vm_compute; reflexivity|discriminate]. Qed.
(** The hash of the empty text and of "a", as published. *)
Example fnv_empty : fnv1a_64 [] = 14695981039346656037. Proof. reflexivity. Qed.
Example fnv_a : fnv1a_64 (text_bytes "a") = 12638187200555641996. Proof. vm_compute. reflexivity. Qed.
