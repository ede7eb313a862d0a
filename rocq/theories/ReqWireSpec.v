(** Vocabulary for requests and responses on a stream. *)
From Coq Require Import String.
From Verif Require Export ReqWire WireSpec.
Local Open Scope N_scope.

Definition a_root (r : bytes) : Prop := length r = 32%nat /\ bytes_ok r.
Definition a_checkpoint (c : WCheckpoint) : Prop := a_root (wc_root c) /\ wc_slot c < 2 ^ 64.
Definition a_status (s : WStatus) : Prop := a_checkpoint (ws_finalized s) /\ a_checkpoint (ws_head s).
(** What the Rust types allow. *)
Definition a_request (r : WRequest) : Prop :=
  match r with
  | RStatus s => a_status s
  | RByRoot roots => (length roots <= 1024)%nat /\ Forall a_root roots
  | RByRange a n => a < 2 ^ 64 /\ n < 2 ^ 64
  end.
(** The protocol a request is sent over. *)
Definition protocol_of (r : WRequest) : string :=
  match r with RStatus _ => "/leanconsensus/req/status/1/ssz_snappy" | RByRoot _ => "/leanconsensus/req/blocks_by_root/1/ssz_snappy"
  | RByRange _ _ => "/leanconsensus/req/blocks_by_range/1/ssz_snappy" end.
Definition for_blocks (protocol : string) : Prop :=
  protocol = "/leanconsensus/req/blocks_by_root/1/ssz_snappy"%string \/ protocol = "/leanconsensus/req/blocks_by_range/1/ssz_snappy"%string.
Definition a_message (m : bytes) : Prop := (length m <= 256)%nat.
