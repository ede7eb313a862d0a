(** The state transition and the clock in 64-bit arithmetic.  Models the same lines as [STF]
    and [Node], with every plain [+], [-] and [*] of the code on [u64] or [usize] (64 bits)
    written as an operation that reports an overflow.  Ranges ([a..b]), lengths of lists and
    the checked and saturating operations of the code are as in [STF]. *)
From Verif Require Export STF Node.
Local Open Scope N_scope.

(** An overflow is a panic in builds with overflow checks; the release build wraps instead. *)
Definition cadd {X} (a b : N) : res X N := if a + b <? two64 then Ok (a + b) else Panic.
Definition csub {X} (a b : N) : res X N := if b <=? a then Ok (a - b) else Panic.
Definition cmul {X} (a b : N) : res X N := if a * b <? two64 then Ok (a * b) else Panic.

(** justified_slots_ops.rs:53-69 *)
Definition extend_to_slot64 (slots : list bool) (finalized_slot target_slot : N) : stf (list bool) :=
  match relative_index target_slot finalized_slot with
  | None => Ok slots
  | Some idx =>
      let! cap := cadd idx 1 in
      if cap <=? lenN slots then Ok slots
      else if HISTORICAL_ROOTS_LIMIT <? cap then Panic
      else Ok (slots ++ replicate (N.to_nat (cap - lenN slots)) false)
  end.
(** lib.rs:324-332 *)
Definition root_to_slot64 (hist : list H256) (finalized_slot : N) : stf (gmap H256 N) :=
  let! a := cadd finalized_slot 1 in
  Ok (if a <? lenN hist then root_slots_from a (drop (N.to_nat a) hist) ∅ else ∅).
(** lib.rs:480-534 *)
Definition try_finalize64 (s : State) (src tgt : Checkpoint) (m : gmap H256 (list bool)) (rts : gmap H256 N)
  : stf (State * gmap H256 (list bool)) :=
  let fin := cp_slot (s_finalized s) in
  if cp_slot src <=? fin then Ok (s, m)
  else
    let! a := cadd (cp_slot src) 1 in
    if any_justifiable (N.to_nat (cp_slot tgt - a)) a fin then Ok (s, m)
    else
      let! delta := csub (cp_slot src) fin in
      let s1 := with_finalized s src in
      let s2 := with_jslots s1 (shift_window (s_jslots s) delta) in
      let m' := filter (fun kv : H256 * list bool =>
                  Is_true (match rts !! kv.1 with Some slot => cp_slot src <? slot | None => false end)) m in
      Ok (s2, m').
(** lib.rs:334-406 *)
Definition process_one64 (rts : gmap H256 N) (acc : State * gmap H256 (list bool)) (a : AggAtt)
  : stf (State * gmap H256 (list bool)) :=
  let '(s, m) := acc in
  let d := at_data a in
  let src := ad_source d in
  let tgt := ad_target d in
  let n := length (s_validators s) in
  let! ok := is_valid_vote s d in
  if negb ok then Ok (s, m)
  else if count_true (at_bits a) =? 0 then Err EmptyAggregationBits
  else if has_oob_bit n (at_bits a) then Err AggregationBitsOutOfBounds
  else
    let votes0 := match m !! cp_root tgt with Some v => v | None => replicate n false end in
    let votes := mark_votes votes0 (at_bits a) in
    let m1 := <[cp_root tgt := votes]> m in
    let! have := cmul 3 (count_true votes) in
    let! need := cmul 2 (N.of_nat n) in
    if need <=? have then
      let s1 := with_justified s (max_cp (s_justified s) tgt) in
      let! js := set_justified (s_jslots s1) (cp_slot (s_finalized s1)) (cp_slot tgt) in
      let s2 := with_jslots s1 js in
      try_finalize64 s2 src tgt (delete (cp_root tgt) m1) rts
    else Ok (s, m1).
Fixpoint process_all64 (rts : gmap H256 N) (acc : State * gmap H256 (list bool)) (atts : list AggAtt)
  : stf (State * gmap H256 (list bool)) :=
  match atts with
  | [] => Ok acc
  | a :: atts' => let! acc' := process_one64 rts acc a in process_all64 rts acc' atts'
  end.
(** lib.rs:540-568 *)
Definition serialize_justifications64 (s : State) (m : gmap H256 (list bool)) : stf State :=
  let n := lenN (s_validators s) in
  let roots := merge_sort N.le (map fst (map_to_list m)) in
  let! size := cmul (lenN roots) n in
  if JUSTIFICATION_VALIDATORS_LIMIT <? size then Panic
  else if HISTORICAL_ROOTS_LIMIT <? lenN roots then Panic
  else
    let vals := concat (map (fun r => match m !! r with Some v => v | None => [] end) roots) in
    Ok (with_votes s roots vals).
(** lib.rs:250-412 *)
Definition process_attestations64 (s : State) (atts : list AggAtt) : stf State :=
  let n := length (s_validators s) in
  if MAX_ATTESTATIONS_DATA <? distinct_data atts then Err TooManyAttestationData
  else if N.of_nat n =? 0 then Err NoValidators
  else
    let! expected := cmul (lenN (s_jroots s)) (N.of_nat n) in
    if negb (lenN (s_jvals s) =? expected) then Err JustificationVotesLengthMismatch
    else if existsb (fun r => r =? ZERO) (s_jroots s) then Err ZeroHashInJustificationRoots
    else
      let m0 := unpack_tallies n (s_jroots s) (s_jvals s) ∅ in
      let! rts := root_to_slot64 (s_hist s) (cp_slot (s_finalized s)) in
      let! sm := process_all64 rts (s, m0) atts in
      serialize_justifications64 sm.1 sm.2.

Section Width.
  Context (hash_state : State -> H256) (hash_header : Header -> H256) (hash_body : list AggAtt -> H256).
  (** lib.rs:106-122; the difference goes into a counter *)
  Definition process_slots64 (s : State) (target_slot : N) : stf State :=
    if target_slot <=? s_slot s then Err StateSlotIsNewer
    else
      let s1 := if h_state_root (s_header s) =? ZERO
                then with_header s (set_state_root (s_header s) (hash_state s)) else s in
      let! _ := csub target_slot (s_slot s) in
      Ok (with_slot s1 target_slot).
  (** lib.rs:135-228 *)
  Definition process_block_header64 (s : State) (b : Block) : stf State :=
    let ph := s_header s in
    if negb (b_slot b =? s_slot s) then Err SlotMismatch
    else if b_slot b <=? h_slot ph then Err ParentSlotIsNewer
    else
      match current_proposer (b_slot b) (lenN (s_validators s)) with
      | None => Err NoValidators
      | Some expected =>
          if negb (b_proposer b =? expected) then Err InvalidProposer
          else
            let parent_root := hash_header ph in
            if negb (b_parent b =? parent_root) then Err InvalidParent
            else
              let s1 :=
                if h_slot ph =? 0 then
                  with_finalized
                    (with_justified s (mkCp parent_root (cp_slot (s_justified s))))
                    (mkCp parent_root (cp_slot (s_finalized s)))
                else s in
              let! gap := csub (b_slot b) (h_slot ph) in
              let! num_empty := csub gap 1 in
              let! with_parent := cadd (lenN (s_hist s)) 1 in
              let! total := cadd with_parent num_empty in
              if HISTORICAL_ROOTS_LIMIT <? total then Err SlotGapTooLarge
              else
                let s2 := with_hist s1 (s_hist s ++ parent_root :: replicate (N.to_nat num_empty) ZERO) in
                let! last := csub (b_slot b) 1 in
                let! js := extend_to_slot64 (s_jslots s2) (cp_slot (s_finalized s2)) last in
                Ok (with_header (with_jslots s2 js)
                     (mkHeader (b_slot b) (b_proposer b) (b_parent b) ZERO (hash_body (b_atts b))))
      end.
  (** lib.rs:125-132 *)
  Definition process_block64 (s : State) (b : Block) : stf State :=
    let! s1 := process_block_header64 s b in
    process_attestations64 s1 (b_atts b).
  (** lib.rs:66-92 *)
  Definition state_transition64 (s : State) (b : Block) : stf State :=
    let! s1 := process_slots64 s (b_slot b) in
    let! s2 := process_block64 s1 b in
    if b_state_root b =? hash_state s2 then Ok s2 else Err StateRootMismatch.
End Width.

(** store.rs:331-340 [on_tick] up to the loop: the interval that is due and the one the clock
    starts counting from *)
Definition tick_times64 (genesis_time timestamp_ms time : N) : res unit (N * N) :=
  let! g := cmul genesis_time 1000 in
  let due := (timestamp_ms - g) / MILLISECONDS_PER_INTERVAL in
  if INTERVALS_PER_SLOT <? due - time then
    let! from := csub due INTERVALS_PER_SLOT in Ok (due, from)
  else Ok (due, time).
(** crates/blockchain/src/lib.rs:284-289 [on_tick]: the slot of a moment *)
Definition wall_slot64 (genesis_time timestamp_ms : N) : res unit N :=
  let! g := cmul genesis_time 1000 in Ok ((timestamp_ms - g) / MILLISECONDS_PER_SLOT).
(** store.rs:889, lib.rs:523, 722, 892: the start of a slot *)
Definition slot_start64 (genesis_time slot : N) : res unit N :=
  let! g := cmul genesis_time 1000 in
  let! m := cmul slot MILLISECONDS_PER_SLOT in
  cadd g m.
(** store.rs:312-318 and crates/blockchain/src/lib.rs:1027-1029: has the slot of a vote or of
    a block not yet begun? *)
Definition too_early64 (time slot : N) : res unit bool :=
  let! horizon := cadd time GOSSIP_DISPARITY_INTERVALS in
  Ok (horizon <? saturating_mul slot INTERVALS_PER_SLOT).
(** store.rs:637-643 *)
Definition beyond_horizon64 (time slot : N) : res unit bool :=
  let! horizon := cadd (time / INTERVALS_PER_SLOT) 1 in
  Ok (horizon <? slot).
