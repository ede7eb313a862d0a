(** The validator key files. *)
From Coq Require Import Ascii String.
From Verif Require Import KeyFilesSpec KeyFilesProofs.
Local Open Scope N_scope.

(** ** C77: a node starts with exactly the keys listed for it.  It starts if and only if
    every public key of the file is well formed, the node is listed, each of its entries
    names a key file of exactly one role, no index has two entries of the same role, and
    every index has both; the keys are then the contents of those files, and there are no
    others. *)
Theorem C77_loads K (disk : string -> option bytes) (from_bytes : bytes -> option K)
    (infos : gmap string (list Entry)) keys_dir node keys :
  read_validator_keys disk from_bytes (Some infos) keys_dir node = Some keys <->
  (forall n l e, infos !! n = Some l -> e ∈ l -> pubkey_ok (en_pubkey e) = true) /\
  exists l, infos !! node = Some l /\ listed_keys disk from_bytes keys_dir l keys.
Proof. exact (loads_pf disk from_bytes infos keys_dir node keys). Qed.
Print Assumptions C77_loads.

Definition kf_disk (path : string) : option bytes :=
  if String.eqb path "/keys/validator_3_attester_key_sk.ssz" then Some [30]
  else if String.eqb path "/keys/validator_3_proposer_key_sk.ssz" then Some [31]
  else if String.eqb path "/elsewhere/4.attester" then Some [40]
  else if String.eqb path "/keys/sub/4.proposer" then Some [41] else None.
Definition kf_parse (b : bytes) : option N := match b with [x] => Some x | _ => None end.
Definition kf_pk (d : string) : string := String.concat "" (replicate 52 d).
Definition kf_list : list Entry :=
  [mkEntry 3 (kf_pk "0a") "validator_3_attester_key_sk.ssz"; mkEntry 4 (kf_pk "B1") "sub/4.proposer";
   mkEntry 4 (kf_pk "c2") "/elsewhere/4.attester"; mkEntry 3 (kf_pk "d3") "validator_3_proposer_key_sk.ssz"].
Definition kf_read (l : list Entry) : option (list (N * (N * N))) :=
  map_to_list <$> read_validator_keys kf_disk kf_parse (Some {[ "node0" := l ]}) "/keys" "node0".
(** Two validators; then a role missing, a duplicate, an ambiguous name, a missing file and
    a malformed public key. *)
Example C77_nonvacuous :
  kf_read kf_list = Some [(3, (30, 31)); (4, (40, 41))] /\
  kf_read (take 3 kf_list) = None /\
  kf_read (kf_list ++ [mkEntry 3 (kf_pk "0a") "validator_3_attester_key_sk.ssz"]) = None /\
  kf_read (mkEntry 5 (kf_pk "0a") "proposer_attester" :: kf_list) = None /\
  kf_read [mkEntry 5 (kf_pk "0a") "5_proposer"; mkEntry 5 (kf_pk "0a") "5_attester"] = None /\
  kf_read [mkEntry 3 "0a" "validator_3_attester_key_sk.ssz"; mkEntry 3 (kf_pk "0a") "validator_3_proposer_key_sk.ssz"] = None.
Proof. vm_compute. done. Qed.

(** Nothing keeps two validators from sharing a key file: then both sign with the same
    one-time keys. *)
Theorem C77_shared_refuted : exists (disk : string -> option bytes) (from_bytes : bytes -> option N) infos dir node keys v w a p q,
  read_validator_keys disk from_bytes (Some infos) dir node = Some keys /\
  v <> w /\ keys !! v = Some (a, p) /\ keys !! w = Some (a, q).
Proof.
  exists kf_disk, kf_parse, {[ "node0" := map (fun e => mkEntry 3 (en_pubkey e) (en_file e)) [mkEntry 3 (kf_pk "0a") "validator_3_attester_key_sk.ssz"; mkEntry 3 (kf_pk "d3") "validator_3_proposer_key_sk.ssz"] ++
    map (fun e => mkEntry 4 (en_pubkey e) (en_file e)) [mkEntry 3 (kf_pk "0a") "validator_3_attester_key_sk.ssz"; mkEntry 3 (kf_pk "d3") "validator_3_proposer_key_sk.ssz"]]}, "/keys"%string, "node0"%string.
  eexists _, 3, 4, 30, 31, 31. split; [vm_compute; reflexivity|]. split; [done|]. split; vm_compute; reflexivity.
Qed.
Print Assumptions C77_shared_refuted.

(** The public keys listed beside the files are not compared with them: the keys loaded are
    the same whatever well-formed public keys the file lists. *)
Theorem C77_pubkeys_unchecked K (disk : string -> option bytes) (from_bytes : bytes -> option K) l l' keys_dir node :
  map (fun e => (en_index e, en_file e)) l = map (fun e => (en_index e, en_file e)) l' ->
  (forall e, e ∈ l -> pubkey_ok (en_pubkey e) = true) -> (forall e, e ∈ l' -> pubkey_ok (en_pubkey e) = true) ->
  read_validator_keys disk from_bytes (Some {[ node := l ]}) keys_dir node =
  read_validator_keys disk from_bytes (Some {[ node := l' ]}) keys_dir node.
Proof. exact (unchecked_pf disk from_bytes l l' keys_dir node). Qed.
Print Assumptions C77_pubkeys_unchecked.
