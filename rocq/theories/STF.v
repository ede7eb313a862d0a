(** Model of crates/blockchain/state_transition/src/lib.rs and
    crates/blockchain/state_transition/src/justified_slots_ops.rs. *)
From Verif Require Export Types.

(** lib.rs:20-61 [enum Error].  Payloads (expected/found values used only in
    messages) are dropped. *)
Inductive StfError :=
| StateSlotIsNewer
| SlotMismatch
| ParentSlotIsNewer
| NoValidators
| InvalidProposer
| InvalidParent
| SlotGapTooLarge
| TooManyAttestationData
| JustificationVotesLengthMismatch
| ZeroHashInJustificationRoots
| JustifiedSlotOutOfRange
| EmptyAggregationBits
| AggregationBitsOutOfBounds
| StateRootMismatch.
Notation stf A := (res StfError A).

(** crates/blockchain/src/lib.rs / types: MAX_ATTESTATIONS_DATA *)
Definition MAX_ATTESTATIONS_DATA : N := 8.

(** ** justified_slots_ops.rs *)

(** justified_slots_ops.rs:13-18 *)
Definition relative_index (target_slot finalized_slot : N) : option N :=
  if target_slot <? finalized_slot then None
  else let d := target_slot - finalized_slot in
       if d <? 1 then None else Some (d - 1).

(** justified_slots_ops.rs:28-42 *)
Definition is_slot_justified (slots : list bool) (finalized_slot target_slot : N)
  : stf bool :=
  match relative_index target_slot finalized_slot with
  | None => Ok true
  | Some idx =>
      match getN slots idx with
      | Some b => Ok b
      | None => Err JustifiedSlotOutOfRange
      end
  end.

(** Bit assignment [SszBitlist::set]: fails out of range. *)
Definition set_bit (l : list bool) (i : N) : option (list bool) :=
  if i <? lenN l then Some (<[N.to_nat i := true]> l) else None.

(** justified_slots_ops.rs:45-49; the [expect] is the [Panic]. *)
Definition set_justified (slots : list bool) (finalized_slot target_slot : N)
  : stf (list bool) :=
  match relative_index target_slot finalized_slot with
  | None => Ok slots
  | Some idx =>
      match set_bit slots idx with
      | Some l => Ok l
      | None => Panic
      end
  end.

(** justified_slots_ops.rs:53-69.  Copying the set bits into a fresh zeroed
    bitlist of the required length is appending [false]s.  [with_length]
    panics above the SSZ limit. *)
Definition extend_to_slot (slots : list bool) (finalized_slot target_slot : N)
  : stf (list bool) :=
  match relative_index target_slot finalized_slot with
  | None => Ok slots
  | Some idx =>
      let cap := idx + 1 in
      if cap <=? lenN slots then Ok slots
      else if HISTORICAL_ROOTS_LIMIT <? cap then Panic
      else Ok (slots ++ replicate (N.to_nat (cap - lenN slots)) false)
  end.

(** justified_slots_ops.rs:72-89.  [remaining <= len <= limit], so the inner
    [expect]/[unwrap] cannot fire; they are not modelled. *)
Definition shift_window (slots : list bool) (delta : N) : list bool :=
  if delta =? 0 then slots
  else if lenN slots <=? delta then []
  else drop (N.to_nat delta) slots.

(** ** lib.rs: arithmetic *)

(** lib.rs:237-239 *)
Definition current_proposer (slot num_validators : N) : option N :=
  if 0 <? num_validators then Some (slot mod num_validators) else None.

(** lib.rs:244-246 *)
Definition is_proposer (validator_index slot num_validators : N) : bool :=
  bool_decide (current_proposer slot num_validators = Some validator_index).

(** Checked u64 operations. *)
Definition checked_mul (a b : N) : option N :=
  if a * b <? two64 then Some (a * b) else None.
Definition checked_add (a b : N) : option N :=
  if a + b <? two64 then Some (a + b) else None.

(** lib.rs:620-644.  [isqrt] is [N.sqrt]; [isqrt().pow(2)] cannot overflow. *)
Definition slot_is_justifiable_after (slot finalized_slot : N) : bool :=
  if slot <? finalized_slot then false
  else
    let delta := slot - finalized_slot in
    (delta <=? 5)
    || (N.sqrt delta * N.sqrt delta =? delta)
    || match checked_mul delta 4 with
       | None => false
       | Some v4 =>
           match checked_add v4 1 with
           | None => false
           | Some v => (N.sqrt v * N.sqrt v =? v) && (v mod 2 =? 1)
           end
       end.

(** lib.rs:581-603 *)
Definition attestation_data_matches_chain (hist : list H256) (d : AttestationData)
  : bool :=
  let src := ad_source d in
  let tgt := ad_target d in
  let hd := ad_head d in
  if (cp_root src =? ZERO) || (cp_root tgt =? ZERO) || (cp_root hd =? ZERO)
  then false
  else
    match getN hist (cp_slot src), getN hist (cp_slot tgt), getN hist (cp_slot hd) with
    | Some a, Some b, Some c =>
        (a =? cp_root src) && (b =? cp_root tgt) && (c =? cp_root hd)
    | _, _, _ => false
    end.

(** lib.rs:431-470 *)
Definition is_valid_vote (s : State) (d : AttestationData) : stf bool :=
  let src := ad_source d in
  let tgt := ad_target d in
  let fin := cp_slot (s_finalized s) in
  let! j1 := is_slot_justified (s_jslots s) fin (cp_slot src) in
  if negb j1 then Ok false
  else
    let! j2 := is_slot_justified (s_jslots s) fin (cp_slot tgt) in
    if j2 then Ok false
    else if negb (attestation_data_matches_chain (s_hist s) d) then Ok false
    else if cp_slot tgt <=? cp_slot src then Ok false
    else if negb (slot_is_justifiable_after (cp_slot tgt) fin) then Ok false
    else Ok true.

(** State field updates. *)
Definition with_slot (s : State) (x : N) : State :=
  mkState (s_genesis_time s) x (s_header s) (s_justified s) (s_finalized s)
    (s_hist s) (s_jslots s) (s_validators s) (s_jroots s) (s_jvals s).
Definition with_header (s : State) (x : Header) : State :=
  mkState (s_genesis_time s) (s_slot s) x (s_justified s) (s_finalized s)
    (s_hist s) (s_jslots s) (s_validators s) (s_jroots s) (s_jvals s).
Definition with_justified (s : State) (x : Checkpoint) : State :=
  mkState (s_genesis_time s) (s_slot s) (s_header s) x (s_finalized s)
    (s_hist s) (s_jslots s) (s_validators s) (s_jroots s) (s_jvals s).
Definition with_finalized (s : State) (x : Checkpoint) : State :=
  mkState (s_genesis_time s) (s_slot s) (s_header s) (s_justified s) x
    (s_hist s) (s_jslots s) (s_validators s) (s_jroots s) (s_jvals s).
Definition with_hist (s : State) (x : list H256) : State :=
  mkState (s_genesis_time s) (s_slot s) (s_header s) (s_justified s) (s_finalized s)
    x (s_jslots s) (s_validators s) (s_jroots s) (s_jvals s).
Definition with_jslots (s : State) (x : list bool) : State :=
  mkState (s_genesis_time s) (s_slot s) (s_header s) (s_justified s) (s_finalized s)
    (s_hist s) x (s_validators s) (s_jroots s) (s_jvals s).
Definition with_votes (s : State) (roots : list H256) (vals : list bool) : State :=
  mkState (s_genesis_time s) (s_slot s) (s_header s) (s_justified s) (s_finalized s)
    (s_hist s) (s_jslots s) (s_validators s) roots vals.
Definition set_state_root (h : Header) (r : H256) : Header :=
  mkHeader (h_slot h) (h_proposer h) (h_parent h) r (h_body_root h).

(** ** lib.rs: process_attestations *)

(** Vote tallies: [HashMap<H256, Vec<bool>>]. The map is only iterated by
    [retain] and by key collection before sorting, so its iteration order is
    not observable. *)
Notation Tallies := (gmap H256 (list bool)) (only parsing).

(** lib.rs:307-318: rebuild the tallies from the flat vote list.  Later
    duplicates overwrite earlier ones, as [collect] does. [get(j) == Some(true)]
    is [default false]. *)
Fixpoint unpack_tallies (n : nat) (roots : list H256) (votes : list bool)
    (acc : Tallies) : Tallies :=
  match roots with
  | [] => acc
  | r :: roots' =>
      unpack_tallies n roots' (drop n votes) (<[r := take n votes]> acc)
  end.

(** lib.rs:324-332: latest slot above the finalized one at which a root occurs. *)
Fixpoint root_slots_from (slot : N) (l : list H256) (m : gmap H256 N) : gmap H256 N :=
  match l with
  | [] => m
  | r :: l' =>
      root_slots_from (slot + 1) l'
        (<[r := match m !! r with Some x => N.max x slot | None => slot end]> m)
  end.
Definition root_to_slot (hist : list H256) (finalized_slot : N) : gmap H256 N :=
  if finalized_slot + 1 <? lenN hist then
    root_slots_from (finalized_slot + 1) (drop (N.to_nat (finalized_slot + 1)) hist) ∅
  else ∅.

(** lib.rs:494-497: is some slot in [a, a+k) justifiable?  [..].any(..) *)
Fixpoint any_justifiable (k : nat) (a fin : N) : bool :=
  match k with
  | O => false
  | S k' => slot_is_justifiable_after a fin || any_justifiable k' (a + 1) fin
  end.

(** lib.rs:480-534 *)
Definition try_finalize (s : State) (src tgt : Checkpoint) (m : Tallies)
    (rts : gmap H256 N) : State * Tallies :=
  let fin := cp_slot (s_finalized s) in
  if cp_slot src <=? fin then (s, m)
  else if any_justifiable (N.to_nat (cp_slot tgt - (cp_slot src + 1)))
            (cp_slot src + 1) fin then (s, m)
  else
    let s1 := with_finalized s src in
    let s2 := with_jslots s1 (shift_window (s_jslots s) (cp_slot src - fin)) in
    let m' := filter (fun kv : H256 * list bool =>
                Is_true (match rts !! kv.1 with
                         | Some slot => cp_slot src <? slot
                         | None => false
                         end)) m in
    (s2, m').

(** lib.rs:366-375: mark the voters.  Bits beyond the tally are not looked at. *)
Fixpoint mark_votes (votes : list bool) (bits : Bits) : list bool :=
  match votes, bits with
  | v :: vs, b :: bs => (v || b) :: mark_votes vs bs
  | _, _ => votes
  end.

(** lib.rs:352-360: first set bit at an index >= n, if any *)
Definition has_oob_bit (n : nat) (bits : Bits) : bool :=
  existsb (fun b => b) (drop n bits).

(** [std::cmp::max_by_key(old, new, slot)]: the second argument on ties. *)
Definition max_cp (old new : Checkpoint) : Checkpoint :=
  if cp_slot new <? cp_slot old then old else new.

(** lib.rs:334-406: one iteration of the attestation loop. *)
Definition process_one (rts : gmap H256 N) (acc : State * Tallies) (a : AggAtt)
  : stf (State * Tallies) :=
  let '(s, m) := acc in
  let d := at_data a in
  let src := ad_source d in
  let tgt := ad_target d in
  let n := length (s_validators s) in
  let! ok := is_valid_vote s d in
  if negb ok then Ok (s, m)
  else if count_true (at_bits a) =? 0 then Err EmptyAggregationBits
  else if has_oob_bit n (at_bits a) then Err AggregationBitsOutOfBounds
  else
    let votes0 := match m !! cp_root tgt with
                  | Some v => v
                  | None => replicate n false
                  end in
    let votes := mark_votes votes0 (at_bits a) in
    let m1 := <[cp_root tgt := votes]> m in
    if 2 * N.of_nat n <=? 3 * count_true votes then
      let s1 := with_justified s (max_cp (s_justified s) tgt) in
      let! js := set_justified (s_jslots s1) (cp_slot (s_finalized s1)) (cp_slot tgt) in
      let s2 := with_jslots s1 js in
      Ok (try_finalize s2 src tgt (delete (cp_root tgt) m1) rts)
    else Ok (s, m1).

Fixpoint process_all (rts : gmap H256 N) (acc : State * Tallies) (atts : list AggAtt)
  : stf (State * Tallies) :=
  match atts with
  | [] => Ok acc
  | a :: atts' =>
      let! acc' := process_one rts acc a in
      process_all rts acc' atts'
  end.

(** lib.rs:540-568.  [with_length]/[try_into] panic above the SSZ limits.
    Setting the bit of each [true] vote in a zeroed list of length
    [roots * n] equals concatenating the tallies when each tally has [n]
    entries (which is how tallies are built). *)
Definition serialize_justifications (s : State) (m : Tallies) : stf State :=
  let n := lenN (s_validators s) in
  let roots := merge_sort N.le (map fst (map_to_list m)) in
  if JUSTIFICATION_VALIDATORS_LIMIT <? lenN roots * n then Panic
  else if HISTORICAL_ROOTS_LIMIT <? lenN roots then Panic
  else
    let vals := concat (map (fun r => match m !! r with Some v => v | None => [] end) roots) in
    Ok (with_votes s roots vals).

(** Number of distinct attestation data (lib.rs:266-267). *)
Definition distinct_data (atts : list AggAtt) : N :=
  lenN (remove_dups (map at_data atts)).

(** lib.rs:250-412 *)
Definition process_attestations (s : State) (atts : list AggAtt) : stf State :=
  let n := length (s_validators s) in
  if MAX_ATTESTATIONS_DATA <? distinct_data atts then Err TooManyAttestationData
  else if N.of_nat n =? 0 then Err NoValidators
  else if negb (lenN (s_jvals s) =? lenN (s_jroots s) * N.of_nat n)
  then Err JustificationVotesLengthMismatch
  else if existsb (fun r => r =? ZERO) (s_jroots s)
  then Err ZeroHashInJustificationRoots
  else
    let m0 := unpack_tallies n (s_jroots s) (s_jvals s) ∅ in
    let rts := root_to_slot (s_hist s) (cp_slot (s_finalized s)) in
    let! sm := process_all rts (s, m0) atts in
    serialize_justifications sm.1 sm.2.

(** ** lib.rs: header and top level *)
Section STF.
  (** Hash-tree-root of a state, a header and a body: external functions. *)
  Context (hash_state : State -> H256) (hash_header : Header -> H256)
          (hash_body : list AggAtt -> H256).

  (** crates/common/types/src/block.rs:212-220 *)
  Definition header_of (b : Block) : Header :=
    mkHeader (b_slot b) (b_proposer b) (b_parent b) (b_state_root b)
      (hash_body (b_atts b)).
  (** The root of a block is the hash-tree-root of its header. *)
  Definition block_root (b : Block) : H256 := hash_header (header_of b).

  (** crates/common/types/src/state.rs:90-114 (registry over the limit panics
      there; it is a side condition here) *)
  Definition genesis (genesis_time : N) (vals : list Validator) : State :=
    mkState genesis_time 0
      (mkHeader 0 0 ZERO ZERO (hash_body []))
      (mkCp ZERO 0) (mkCp ZERO 0) [] [] vals [] [].

  (** lib.rs:106-122 *)
  Definition process_slots (s : State) (target_slot : N) : stf State :=
    if target_slot <=? s_slot s then Err StateSlotIsNewer
    else
      let s1 := if h_state_root (s_header s) =? ZERO
                then with_header s (set_state_root (s_header s) (hash_state s))
                else s in
      Ok (with_slot s1 target_slot).

  (** lib.rs:135-228 *)
  Definition process_block_header (s : State) (b : Block) : stf State :=
    let ph := s_header s in
    if negb (b_slot b =? s_slot s) then Err SlotMismatch
    else if b_slot b <=? h_slot ph then Err ParentSlotIsNewer
    else
      match current_proposer (b_slot b) (lenN (s_validators s)) with
      | None => Err NoValidators
      | Some expected =>
          if negb (b_proposer b =? expected) then Err InvalidProposer
          else
            let parent_root := hash_header ph in
            if negb (b_parent b =? parent_root) then Err InvalidParent
            else
              let s1 :=
                if h_slot ph =? 0 then
                  with_finalized
                    (with_justified s (mkCp parent_root (cp_slot (s_justified s))))
                    (mkCp parent_root (cp_slot (s_finalized s)))
                else s in
              let num_empty := b_slot b - h_slot ph - 1 in
              if HISTORICAL_ROOTS_LIMIT <? lenN (s_hist s) + 1 + num_empty
              then Err SlotGapTooLarge
              else
                let s2 := with_hist s1
                  (s_hist s ++ parent_root :: replicate (N.to_nat num_empty) ZERO) in
                let! js := extend_to_slot (s_jslots s2) (cp_slot (s_finalized s2))
                             (b_slot b - 1) in
                Ok (with_header (with_jslots s2 js)
                     (mkHeader (b_slot b) (b_proposer b) (b_parent b) ZERO
                        (hash_body (b_atts b))))
      end.

  (** lib.rs:125-132 *)
  Definition process_block (s : State) (b : Block) : stf State :=
    let! s1 := process_block_header s b in
    process_attestations s1 (b_atts b).

  (** lib.rs:66-92 *)
  Definition state_transition (s : State) (b : Block) : stf State :=
    let! s1 := process_slots s (b_slot b) in
    let! s2 := process_block s1 b in
    if b_state_root b =? hash_state s2 then Ok s2 else Err StateRootMismatch.
End STF.
