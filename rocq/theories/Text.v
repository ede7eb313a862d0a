(** Roots and public keys as text: in JSON, in block ids and in the genesis configuration.
    Models crates/common/types/src/primitives.rs:40-63, 96-109 and
    crates/common/types/src/genesis.rs:25-39, 114-127.  Bytes are numbers below 256; the JSON and
    YAML parsers are left out: a text comes as a string. *)
From Coq Require Import Ascii String.
From Verif Require Export Serve Startup.
Local Open Scope N_scope.

(** [hex::decode]: two digits of either case to a byte *)
Fixpoint hex_decode (s : string) : option (list N) :=
  match s with
  | EmptyString => Some []
  | String a (String b s') =>
      match hex_val a, hex_val b, hex_decode s' with
      | Some x, Some y, Some l => Some (16 * x + y :: l)
      | _, _, _ => None
      end
  | String _ EmptyString => None
  end.
(** [strip_prefix("0x").unwrap_or] *)
Definition strip_0x (s : string) : string := match str_strip "0x" s with Some t => t | None => s end.
(** primitives.rs:47-62 *)
Definition h256_deserialize (s : string) : option (list N) :=
  match hex_decode (strip_0x s) with
  | Some l => if Nat.eqb (length l) 32 then Some l else None
  | None => None
  end.
(** A digit of [{:x}]. *)
Definition lower_digit (d : N) : ascii :=
  match String.get (N.to_nat d) "0123456789abcdef" with Some c => c | None => "0"%char end.
(** primitives.rs:96-103, [{:02x}] of every byte *)
Fixpoint lower_hex (l : list N) : string :=
  match l with
  | [] => EmptyString
  | b :: l' => String (lower_digit (b / 16)) (String (lower_digit (b mod 16)) (lower_hex l'))
  end.
(** primitives.rs:105-109, 40-44 *)
Definition h256_display (l : list N) : string := String "0" (String "x" (lower_hex l)).

(** genesis.rs:114-127 *)
Definition deser_pubkey_hex (s : string) : option (list N) :=
  match hex_decode (strip_0x s) with
  | Some l => if Nat.eqb (length l) 52 then Some l else None
  | None => None
  end.
(** The number written by bytes, first byte most significant: roots and keys are such numbers
    in the other models. *)
Definition be (l : list N) : N := fold_left (fun a b => 256 * a + b) l 0.
(** genesis.rs:25-39: the entries of the file, in order; one bad key makes the whole file
    unreadable *)
Fixpoint parse_entries (l : list (string * string)) : option (list (N * N)) :=
  match l with
  | [] => Some []
  | (a, p) :: l' =>
      match deser_pubkey_hex a, deser_pubkey_hex p, parse_entries l' with
      | Some x, Some y, Some r => Some ((be x, be y) :: r)
      | _, _, _ => None
      end
  end.
Definition parse_genesis (time : N) (l : list (string * string)) : option GenesisConfig :=
  match parse_entries l with Some r => Some (mkGC time r) | None => None end.
