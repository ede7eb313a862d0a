(** Roots and public keys as text. *)
From Coq Require Import Ascii String.
From Verif Require Import TextSpec TextProofs TextMore KeyFiles ServeThms StartupExamples.
Local Open Scope N_scope.

(** ** C88 roots and keys as text *)

(** A text is read as a root exactly when it consists of the 64 hexadecimal digits of the
    root, in letters of either case, with or without "0x". *)
Theorem C88_root_read s l : h256_deserialize s = Some l <-> denotes 32 s l.
Proof. exact (read_root_pf s l). Qed.
Print Assumptions C88_root_read.

(** Every root is written as "0x" and 64 small digits, and read back as itself. *)
Theorem C88_root_written l : nbytes 32 l ->
  h256_display l = root_id (be l) /\ h256_deserialize (h256_display l) = Some l.
Proof. intros H. split; [exact (proj1 (display_pf l H))|exact (round_trip_pf l H)]. Qed.
Print Assumptions C88_root_written.

(** Two texts are read as the same root exactly when they differ in letter case and "0x"
    only. *)
Theorem C88_root_same s s' l l' :
  h256_deserialize s = Some l -> h256_deserialize s' = Some l' -> (l = l' <-> same_text s s').
Proof. exact (same_root_pf s s' l l'). Qed.
Print Assumptions C88_root_same.

(** A root as the node writes it is a block id that the HTTP interface reads as this root. *)
Theorem C88_root_as_block_id n l : nbytes 32 l -> resolve_block_id n (h256_display l) = Ok (HOk (be l)).
Proof. intros H. destruct (display_pf l H) as [-> Hl]. exact (resolve_root n (be l) Hl). Qed.
Print Assumptions C88_root_as_block_id.

(** A genesis file is accepted exactly when every key in it consists of the 104 hexadecimal
    digits of 52 bytes, with or without "0x".  It then means the validators with these keys,
    in the order of the file. *)
Theorem C88_genesis_read time l c :
  parse_genesis time l = Some c <->
  gc_time c = time /\
  Forall2 (fun e v => exists x y, denotes 52 (fst e) x /\ denotes 52 (snd e) y /\ v = (be x, be y)) l (gc_entries c).
Proof. exact (genesis_pf time l c). Qed.
Print Assumptions C88_genesis_read.

(** Keys that differ are different numbers: nothing is lost where keys are compared as
    numbers. *)
Theorem C88_keys_kept s s' l l' : denotes 52 s l -> denotes 52 s' l' -> (be l = be l' <-> l = l').
Proof. exact (same_key_pf 52 s s' l l'). Qed.
Print Assumptions C88_keys_kept.

(** The validator file (annotated_validators.yaml) accepts a key exactly when it consists of
    the 104 hexadecimal digits of 52 bytes, without "0x". *)
Theorem C88_validator_file s :
  pubkey_ok s = true <-> exists l, nbytes 52 l /\ lowercase s = hex_digits (2 * 52) (be l) EmptyString.
Proof. exact (annotated_pf s). Qed.
Print Assumptions C88_validator_file.

(** In full the claim would be that both files accept the same texts.  They do not: "0x"
    before a key is accepted in the genesis file and makes the validator file unreadable. *)
Theorem C88_same_keys_refuted : exists s l, denotes 52 s l /\ deser_pubkey_hex s = Some l /\ pubkey_ok s = false.
Proof.
  exists ("0x" ++ lower_hex (repeat 171 52))%string, (repeat 171 52).
  assert (deser_pubkey_hex ("0x" ++ lower_hex (repeat 171 52)) = Some (repeat 171 52)) as H by (vm_compute; reflexivity).
  split; [exact (proj1 (read_key_pf _ _) H)|]. split; [exact H|]. vm_compute. reflexivity.
Qed.
Print Assumptions C88_same_keys_refuted.

(** Non-vacuity: a root in mixed case, a text one digit short, a bad digit, a capital "0X";
    two validators in the genesis file, the second key with "0x". *)
Definition ex_root : list N := (map N.of_nat (seq 160 32))%list.
Definition ex_mixed : string := "A0a1A2a3A4a5A6a7A8a9AaABAcADaEaFb0b1b2b3b4b5b6b7b8b9babbbcbdbeBF".
Example C88_reads :
  h256_deserialize ex_mixed = Some ex_root /\ h256_deserialize ("0x" ++ ex_mixed) = Some ex_root /\
  h256_deserialize ("0X" ++ ex_mixed) = None /\ h256_deserialize "0x" = None /\
  h256_deserialize (String "g" (substring 1 63 ex_mixed)) = None /\ h256_deserialize (substring 0 63 ex_mixed) = None /\
  h256_deserialize (substring 0 62 ex_mixed) = None /\
  h256_display ex_root = "0xa0a1a2a3a4a5a6a7a8a9aaabacadaeafb0b1b2b3b4b5b6b7b8b9babbbcbdbebf"%string.
Proof. repeat split; vm_compute; reflexivity. Qed.
Example C88_reads_genesis :
  parse_genesis 1000 [(lower_hex (repeat 1 52), lower_hex (repeat 2 52)); (("0x" ++ lower_hex (repeat 3 52))%string, lower_hex (repeat 4 52))]
  = Some (mkGC 1000 [(be (repeat 1 52), be (repeat 2 52)); (be (repeat 3 52), be (repeat 4 52))]) /\
  parse_genesis 1000 [(lower_hex (repeat 1 52), lower_hex (repeat 2 51))] = None.
Proof. split; vm_compute; reflexivity. Qed.
