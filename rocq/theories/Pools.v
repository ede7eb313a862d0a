(** The two in-memory pools of crates/storage/src/store.rs:151-498.  Both are a
    map from data root to an entry, a queue of the roots in first-insertion order
    and a counter of the stored items; the shared part is written once.
    [usize] subtraction below zero (a panic in debug builds, a wrap in release
    builds) is [Panic]. *)
From Verif Require Export Types.

(** ** bits_is_subset *)
(** Bytes of a bitlist, eight bits per byte, least significant bit first, the
    last byte padded with zeros ([SszBitlist::as_bytes]; external crate). *)
Fixpoint byte_of (l : Bits) : N :=
  match l with [] => 0 | b :: l' => (if b then 1 else 0) + 2 * byte_of l' end.
Fixpoint chunks8 (fuel : nat) (l : Bits) : list N :=
  match fuel, l with
  | S f, _ :: _ => byte_of (take 8 l) :: chunks8 f (drop 8 l)
  | _, _ => []
  end.
Definition as_bytes (l : Bits) : list N := chunks8 (length l) l.

(** crates/common/types/src/attestation.rs:140-153 *)
Fixpoint bytes_subset (a b : list N) : bool :=
  match a with
  | [] => true
  | x :: a' =>
      if x =? 0 then bytes_subset a' (tail b)
      else if negb (N.land x (N.lnot (default 0 (head b)) 8) =? 0) then false
      else bytes_subset a' (tail b)
  end.
Definition bits_is_subset (a b : Bits) : bool := bytes_subset (as_bytes a) (as_bytes b).

(** ** Buffers *)
Record Buf (E : Type) := mkBuf {
  bf_data : gmap H256 E;
  bf_order : list H256;
  bf_cap : N;
  bf_total : N }.
Global Arguments mkBuf {E} _ _ _ _.
Global Arguments bf_data {E} _.
Global Arguments bf_order {E} _.
Global Arguments bf_cap {E} _.
Global Arguments bf_total {E} _.

Section Buf.
  Context {E : Type} (esize : E -> N).

  (** store.rs:159-166, 345-352 [new] *)
  Definition buf_new (cap : N) : Buf E := mkBuf ∅ [] cap 0.

  (** store.rs:213-222 and 388-397: evict oldest data roots until under
      capacity. *)
  Fixpoint evict (data : gmap H256 E) (order : list H256) (cap total : N) : res unit (Buf E) :=
    if cap <? total then
      match order with
      | [] => Ok (mkBuf data [] cap total)
      | r :: order' =>
          match data !! r with
          | Some e =>
              if total <? esize e then Panic
              else evict (delete r data) order' cap (total - esize e)
          | None => evict data order' cap total
          end
      end
    else Ok (mkBuf data order cap total).

  (** Sum of the sizes of the entries of a map. *)
  Definition size_sum (m : gmap H256 E) : N := map_fold (fun _ e acc => esize e + acc) 0 m.

  (** store.rs:286-303 and 430-449 [prune]: keep the entries satisfying [keep];
      the order queue is cleaned only if something was removed.  The
      subtractions of [retain] are done at once: their sum is what matters.
      Returns the number of entries removed. *)
  Definition buf_prune (keep : E -> bool) (b : Buf E) : res unit (Buf E * N) :=
    let kept := filter (fun x => Is_true (keep x.2)) (bf_data b) in
    let removed := filter (fun x => ~ Is_true (keep x.2)) (bf_data b) in
    if bf_total b <? size_sum removed then Panic
    else
      let n := N.of_nat (size removed) in
      let order := if 0 <? n
                   then List.filter (fun r => bool_decide (is_Some (kept !! r))) (bf_order b)
                   else bf_order b in
      Ok (mkBuf kept order (bf_cap b) (bf_total b - size_sum removed), n).
End Buf.

(** ** Aggregated payloads *)
(** crates/common/types/src/block.rs [SingleMessageAggregate]: participants and
    opaque proof bytes. *)
Record Proof_ := mkProof { pr_bits : Bits; pr_bytes : N }.
Global Instance Proof_eqdec : EqDecision Proof_.
Proof. solve_decision. Defined.

(** store.rs:138-141 *)
Record PayloadEntry := mkPE { pe_data : AttestationData; pe_proofs : list Proof_ }.
Definition pe_size (e : PayloadEntry) : N := lenN (pe_proofs e).

(** [Vec::swap_remove] *)
Definition swap_remove {A} (i : nat) (l : list A) : res unit (list A) :=
  match last l with
  | Some z => if (i <? length l)%nat then Ok (take (length l - 1) (<[i:=z]> l)) else Panic
  | None => Panic
  end.

(** store.rs:183-194: [None] if some stored proof subsumes the incoming one,
    else the indices of the stored proofs that the incoming one subsumes. *)
Fixpoint scan_proofs (bits : Bits) (i : nat) (l : list Proof_) : option (list nat) :=
  match l with
  | [] => Some []
  | q :: l' =>
      if bits_is_subset bits (pr_bits q) then None
      else match scan_proofs bits (S i) l' with
           | None => None
           | Some is => Some (if bits_is_subset (pr_bits q) bits then i :: is else is)
           end
  end.

(** store.rs:197-200: the loop over [to_remove] in reverse. *)
Fixpoint remove_rev (is : list nat) (l : list Proof_) (total : N) : res unit (list Proof_ * N) :=
  match is with
  | [] => Ok (l, total)
  | i :: is' =>
      let! lt := remove_rev is' l total in
      let! l' := swap_remove i lt.1 in
      if lt.2 <? 1 then Panic else Ok (l', lt.2 - 1)
  end.

Section Payload.
  (** [AttestationData::hash_tree_root] *)
  Context (ad_hash : AttestationData -> H256).

  (** store.rs:178-223 [PayloadBuffer::push] *)
  Definition payload_push (b : Buf PayloadEntry) (d : AttestationData) (p : Proof_)
    : res unit (Buf PayloadEntry) :=
    let r := ad_hash d in
    match bf_data b !! r with
    | Some e =>
        match scan_proofs (pr_bits p) 0 (pe_proofs e) with
        | None => Ok b
        | Some is =>
            let! lt := remove_rev is (pe_proofs e) (bf_total b) in
            evict pe_size (<[r := mkPE (pe_data e) (lt.1 ++ [p])]> (bf_data b)) (bf_order b)
                  (bf_cap b) (lt.2 + 1)
        end
    | None =>
        evict pe_size (<[r := mkPE d [p]]> (bf_data b)) (bf_order b ++ [r])
              (bf_cap b) (bf_total b + 1)
    end.

  (** store.rs:226-230 [push_batch] *)
  Fixpoint payload_push_batch (b : Buf PayloadEntry) (l : list (AttestationData * Proof_))
    : res unit (Buf PayloadEntry) :=
    match l with
    | [] => Ok b
    | (d, p) :: l' => let! b' := payload_push b d p in payload_push_batch b' l'
    end.

  (** store.rs:240-251 [drain]: the emptied buffer and the entries in queue
      order.  Whatever is in the map but not in the queue stays in the map. *)
  Fixpoint drain_loop (data : gmap H256 PayloadEntry) (order : list H256)
    : gmap H256 PayloadEntry * list (AttestationData * Proof_) :=
    match order with
    | [] => (data, [])
    | r :: order' =>
        match data !! r with
        | Some e => let '(m, l) := drain_loop (delete r data) order' in
                    (m, map (pair (pe_data e)) (pe_proofs e) ++ l)
        | None => drain_loop data order'
        end
    end.
  Definition payload_drain (b : Buf PayloadEntry)
    : Buf PayloadEntry * list (AttestationData * Proof_) :=
    let '(m, l) := drain_loop (bf_data b) (bf_order b) in (mkBuf m [] (bf_cap b) 0, l).

  (** store.rs:286-303 [PayloadBuffer::prune] *)
  Definition payload_prune (fin : N) (b : Buf PayloadEntry) : res unit (Buf PayloadEntry * N) :=
    buf_prune pe_size (fun e => fin <? cp_slot (ad_target (pe_data e))) b.

  (** store.rs:1609-1621 [promote_new_aggregated_payloads], pool part. *)
  Definition payload_promote (new known : Buf PayloadEntry)
    : res unit (Buf PayloadEntry * Buf PayloadEntry) :=
    let '(new', l) := payload_drain new in
    let! known' := payload_push_batch known l in Ok (new', known').
End Payload.

(** ** Gossip signatures *)
(** store.rs:312-315; signatures as opaque numbers. *)
Record GossipEntry := mkGE { ge_data : AttestationData; ge_sigs : gmap N N }.
Definition ge_size (e : GossipEntry) : N := N.of_nat (size (ge_sigs e)).

Section Gossip.
  Context (ad_hash : AttestationData -> H256).

  (** store.rs:357-398 [GossipSignatureBuffer::insert] *)
  Definition gossip_insert (b : Buf GossipEntry) (d : AttestationData) (v sig : N)
    : res unit (Buf GossipEntry) :=
    let r := ad_hash d in
    match bf_data b !! r with
    | Some e =>
        let e' := mkGE (ge_data e) (<[v := sig]> (ge_sigs e)) in
        let total := if bool_decide (ge_sigs e !! v = None) then bf_total b + 1 else bf_total b in
        evict ge_size (<[r := e']> (bf_data b)) (bf_order b) (bf_cap b) total
    | None =>
        evict ge_size (<[r := mkGE d {[v := sig]}]> (bf_data b)) (bf_order b ++ [r])
              (bf_cap b) (bf_total b + 1)
    end.

  (** store.rs:404-424 [delete]: the loop, with the set of emptied roots. *)
  Fixpoint delete_loop (keys : list (N * H256)) (data : gmap H256 GossipEntry) (total : N)
      (emptied : gset H256) : res unit (gmap H256 GossipEntry * N * gset H256) :=
    match keys with
    | [] => Ok (data, total, emptied)
    | (v, r) :: keys' =>
        match data !! r with
        | Some e =>
            let present := bool_decide (is_Some (ge_sigs e !! v)) in
            if present && (total <? 1) then Panic
            else
              let total' := if present then total - 1 else total in
              let sigs := delete v (ge_sigs e) in
              if bool_decide (sigs = ∅)
              then delete_loop keys' (delete r data) total' ({[r]} ∪ emptied)
              else delete_loop keys' (<[r := mkGE (ge_data e) sigs]> data) total' emptied
        | None => delete_loop keys' data total emptied
        end
    end.
  Definition gossip_delete (b : Buf GossipEntry) (keys : list (N * H256)) : res unit (Buf GossipEntry) :=
    let! x := delete_loop keys (bf_data b) (bf_total b) ∅ in
    let '(data, total, emptied) := x in
    let order := if bool_decide (emptied = ∅) then bf_order b
                 else List.filter (fun r => negb (bool_decide (r ∈ emptied))) (bf_order b) in
    Ok (mkBuf data order (bf_cap b) total).

  (** store.rs:430-449 [GossipSignatureBuffer::prune] *)
  Definition gossip_prune (fin : N) (b : Buf GossipEntry) : res unit (Buf GossipEntry * N) :=
    buf_prune ge_size (fun e => fin <? ad_slot (ge_data e)) b.

  (** store.rs:466-473 *)
  Definition max_group_count_for_slot (slot : N) (b : Buf GossipEntry) : N :=
    map_fold (fun _ e acc => if ad_slot (ge_data e) =? slot then N.max (ge_size e) acc else acc)
             0 (bf_data b).
End Gossip.
