(** The validators' signing keys: prepared windows and the key manager
    (crates/common/crypto/src/signature.rs, crates/blockchain/src/key_manager.rs). *)
From Verif Require Export Actor.
Local Open Scope N_scope.

(** Slots covered by one bottom tree (signature.rs:117, 131). *)
Definition LEAVES : N := 65536.

(** crates/common/crypto/src/signature.rs:82-84 [ValidatorSecretKey]: which key it is,
    the first of the two bottom trees that are prepared, and the end of the activation
    interval, in bottom trees.  Simplified: the signature scheme (leansig) is an external
    crate; of its secret keys only the prepared window is modelled, as signature.rs
    documents it. *)
Record Key := mkKey { k_id : N; k_first : N; k_end : N }.

(** signature.rs:102-108 [is_prepared_for]: two bottom trees from the first one *)
Definition is_prepared_for (k : Key) (slot : N) : bool :=
  (k_first k * LEAVES <=? slot) && (slot <? (k_first k + 2) * LEAVES).

(** signature.rs:115-122 [advance_preparation]: one bottom tree on, nothing at the end of
    the activation interval *)
Definition advance_preparation (k : Key) : Key :=
  if k_first k + 3 <=? k_end k then mkKey (k_id k) (k_first k + 1) (k_end k) else k.

(** key_manager.rs:139-168 [advance_key]: the loop; [None] when it runs out of [fuel].
    The boolean says whether the result is [Ok]. *)
Fixpoint advance_loop (fuel : nat) (k : Key) (slot : N) : option (Key * bool) :=
  if is_prepared_for k slot then Some (k, true)
  else
    match fuel with
    | O => None
    | S f =>
        let k' := advance_preparation k in
        if k_first k' =? k_first k then Some (k', false) else advance_loop f k' slot
    end.
(** The window moves at most to the end of the activation interval, so the loop never
    runs out of this fuel ([C72_window]). *)
Definition advance_fuel (k : Key) : nat := S (N.to_nat (k_end k)).
Definition advance_key (k : Key) (slot : N) : Key * bool :=
  match advance_loop (advance_fuel k) k slot with Some x => x | None => (k, false) end.

(** key_manager.rs:29-32 [ValidatorKeyPair] and 38-40 [KeyManager] *)
Record KeyPair := mkPair { kp_att : Key; kp_prop : Key }.
Notation KeyManager := (gmap N KeyPair).

(** [as u32] *)
Definition as_u32 (n : N) : N := n mod two32.

(** key_manager.rs:53-62 *)
Definition advance_keys_to (K : KeyManager) (slot : N) : KeyManager :=
  (fun p => mkPair (advance_key (kp_att p) slot).1 (advance_key (kp_prop p) slot).1) <$> K.

Section Sign.
  (** leansig's [sign]: key, epoch and message; [None]: it fails (signature.rs:97-100). *)
  Context (X : N -> N -> H256 -> option N).
  Context (hash : AttestationData -> H256).

  (** key_manager.rs:65-74, 86-113; the manager afterwards and the signature, if any *)
  Definition sign_attestation (K : KeyManager) (v : N) (d : AttestationData) : KeyManager * option N :=
    match K !! v with
    | None => (K, None)
    | Some p =>
        let slot := as_u32 (ad_slot d) in
        let x := advance_key (kp_att p) slot in
        (<[v := mkPair x.1 (kp_prop p)]> K, if x.2 then X (k_id x.1) slot (hash d) else None)
    end.
  (** key_manager.rs:77-84, 115-136 *)
  Definition sign_block_root (K : KeyManager) (v : N) (slot : N) (root : H256) : KeyManager * option N :=
    match K !! v with
    | None => (K, None)
    | Some p =>
        let x := advance_key (kp_prop p) slot in
        (<[v := mkPair (kp_att p) x.1]> K, if x.2 then X (k_id x.1) slot root else None)
    end.

  (** What the actor asks of the key manager. *)
  Inductive Call :=
  | c_vote (v : N) (d : AttestationData)
  | c_block (v slot : N) (root : H256).
  Definition do_call (K : KeyManager) (c : Call) : KeyManager * option N :=
    match c with
    | c_vote v d => sign_attestation K v d
    | c_block v slot root => sign_block_root K v (as_u32 slot) root
    end.
  Fixpoint do_calls (K : KeyManager) (cs : list Call) : KeyManager * list (Call * option N) :=
    match cs with
    | [] => (K, [])
    | c :: cs' =>
        let x := do_call K c in
        let y := do_calls x.1 cs' in
        (y.1, (c, x.2) :: y.2)
    end.
End Sign.

(** The calls of a tick that is handled (crates/blockchain/src/lib.rs:385-470, 659-674,
    766-776): in interval 1 a vote for every validator, in interval 4 the block of the
    next slot, if one of the validators proposes it and it has been built; both only
    while duties are allowed.  [nv]: the number of validators of the head state;
    [d], [root]: what is signed. *)
Definition tick_calls (C : Config) (nv : N) (a : Actor) (i : N) (d : AttestationData) (built : bool) (root : H256)
  : list Call :=
  if negb (duties_allowed C a) then []
  else if i mod 5 =? 1 then map (fun v => c_vote v d) (cf_own C)
  else if (i mod 5 =? 4) && built then
    match List.find (fun v => is_proposer v (i / 5 + 1) nv) (cf_own C) with
    | Some v => [c_block v (i / 5 + 1) root]
    | None => []
    end
  else [].
(** ... then every key is prepared for the next slot (lib.rs:470). *)
Definition tick_keys (X : N -> N -> H256 -> option N) (hash : AttestationData -> H256)
  (K : KeyManager) (i : N) (cs : list Call) : KeyManager * list (Call * option N) :=
  let x := do_calls X hash K cs in
  (advance_keys_to x.1 (as_u32 (i / 5 + 1)), x.2).
