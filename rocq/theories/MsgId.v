(** Gossip message identifiers and the duplicate filter keyed by them.
    Models crates/net/p2p/src/lib.rs:787-806; SHA-256 truncated to 20 bytes is a
    parameter. *)
From Coq Require Import Ascii String.
From Verif Require Export Gossip.
Local Open Scope N_scope.

(** lib.rs:788-789 *)
Definition MESSAGE_DOMAIN_INVALID_SNAPPY : bytes := [0; 0; 0; 0].
Definition MESSAGE_DOMAIN_VALID_SNAPPY : bytes := [1; 0; 0; 0].

(** [u64::to_le_bytes]: [k] bytes, the least significant first *)
Fixpoint le_bytes (k : nat) (n : N) : bytes :=
  match k with O => [] | S k' => n mod 256 :: le_bytes k' (n / 256) end.
(** [str::as_bytes] *)
Definition as_bytes (s : string) : bytes := map N_of_ascii (list_ascii_of_string s).

Section MsgId.
  Context (raw_decompress : bytes -> option bytes) (raw_len : bytes -> option N).
  Context (sha256_20 : bytes -> bytes).

  (** lib.rs:791-803: what is hashed *)
  Definition id_preimage (topic : string) (data : bytes) : bytes :=
    let '(domain, payload) := match decompress_message raw_decompress raw_len data with
                              | Some u => (MESSAGE_DOMAIN_VALID_SNAPPY, u)
                              | None => (MESSAGE_DOMAIN_INVALID_SNAPPY, data)
                              end in
    domain ++ le_bytes 8 (N.of_nat (String.length topic)) ++ as_bytes topic ++ payload.
  (** lib.rs:787-806 *)
  Definition compute_message_id (topic : string) (data : bytes) : bytes :=
    sha256_20 (id_preimage topic data).

  (** gossipsub's duplicate cache (lib.rs:236-239; external): of the messages that
      arrive, those handed on, the first of each identifier.  Simplified: identifiers
      are not forgotten (the cache keeps them 24 seconds). *)
  Fixpoint handed_on (seen : list bytes) (l : list (string * bytes)) : list (string * bytes) :=
    match l with
    | [] => []
    | m :: l' =>
        let i := compute_message_id m.1 m.2 in
        if bool_decide (i ∈ seen) then handed_on seen l' else m :: handed_on (i :: seen) l'
    end.
End MsgId.
