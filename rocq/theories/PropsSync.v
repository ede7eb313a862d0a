(** Range sync (C47) and fetching of single blocks (C48, C49). *)
From Verif Require Import SyncExamples SyncProofs SyncRange SyncRoot.
Local Open Scope N_scope.

(** ** C47 range sync *)

(** Never more than one range request waits for its answer. *)
Theorem C47_single root_of n id p a e id' p' a' e' :
  reached root_of n -> waiting_range n id p a e -> waiting_range n id' p' a' e' ->
  id = id' /\ p = p' /\ a = a' /\ e = e'.
Proof. exact (C47_single_pf root_of n id p a e id' p' a' e'). Qed.
Print Assumptions C47_single.

Example C47_single_nonvacuous : reached sx_root sr_m /\ waiting_range sr_m 2 1 2059 3000.
Proof. destruct sr_last as (acts & _ & Hw & _). split; [exact (reached_run _ _ _ _ sr_reached sr_run)|exact Hw]. Qed.

(** A batch has 1 to 1024 slots; the peer asked announced a head at or above its last
    slot; its first slot is above a head of our own at which some peer was ahead, its
    last slot within the 65536 slots above such a head. *)
Theorem C47_batch root_of l x m id p a c :
  run root_of net0 (l ++ [x]) m -> SendRange id p a c ∈ en_acts x ->
  1 <= c <= 1024 /\
  (exists h oh, happened (EvStatus p h oh) (l ++ [x]) /\ a + c - 1 <= h) /\
  (exists q h oh, happened (EvStatus q h oh) (l ++ [x]) /\ oh < h /\ oh < a) /\
  (exists q h oh, happened (EvStatus q h oh) (l ++ [x]) /\ oh < h /\ a + c - 1 <= N.min h (oh + 65536)).
Proof. exact (C47_batch_pf root_of l x m id p a c). Qed.
Print Assumptions C47_batch.

Example C47_batch_nonvacuous :
  acts_of (log_of sx_root net0 sr_start) = [SendStatus 1; SendStatus 2; SendRange 0 1 11 1024].
Proof. vm_compute. reflexivity. Qed.

(** While the sync lasts its target and its position never go back. *)
Theorem C47_target root_of n l m a t a' t' :
  reached root_of n -> run root_of n l m -> throughout syncing l m ->
  sync_range n a t -> sync_range m a' t' -> a <= a' /\ t <= t'.
Proof. exact (C47_target_pf root_of n l m a t a' t'). Qed.
Print Assumptions C47_target.

Example C47_target_nonvacuous :
  reached sx_root sr_n /\ run sx_root sr_n sr_log sr_m /\ throughout syncing sr_log sr_m /\
  sync_range sr_n 11 3001 /\ sync_range sr_m 2059 3001.
Proof.
  split; [exact sr_reached|]. split; [exact sr_run|]. split; [exact sr_throughout|].
  split; eexists; vm_compute; repeat split.
Qed.

(** A peer ahead of us raises the target to its head (or 65536 slots above ours). *)
Theorem C47_raise root_of pick ok n p h oh n' acts a t :
  reached root_of n -> oh < h -> h < two64 - 1 -> step root_of pick ok n (EvStatus p h oh) = Some (n', acts) ->
  sync_range n' a t -> N.min h (oh + 65536) < t.
Proof. exact (C47_raise_pf root_of pick ok n p h oh n' acts a t). Qed.
Print Assumptions C47_raise.

Example C47_raise_nonvacuous :
  sync_range (end_of sx_root sr_n [(0, true, EvStatus 2 4000 20)]) 11 4001 /\
  goes sx_root sr_n [(0, true, EvStatus 2 4000 20)] = true.
Proof. split; [eexists; vm_compute; repeat split|vm_compute; reflexivity]. Qed.

(** The batch after a batch: the slots right behind it if it was answered with blocks,
    its own first slot again if it failed or was answered without blocks. *)
Theorem C47_next root_of n l x m id p a e id' p' a' c' :
  reached root_of n -> waiting_range n id p a e ->
  run root_of n (l ++ [x]) m -> throughout syncing (l ++ [x]) m ->
  batches (acts_of l) = [] -> SendRange id' p' a' c' ∈ en_acts x ->
  (answered id (l ++ [x]) /\ a' = e + 1) \/ (failed id (l ++ [x]) /\ a' = a).
Proof. exact (C47_next_pf root_of n l x m id p a e id' p' a' c'). Qed.
Print Assumptions C47_next.

Example C47_next_nonvacuous :
  batches (acts_of (log_of sx_root sr_n [(0, true, EvStatus 2 2500 10); (0, true, EvBlocks 0 [sx_block 11])])) = [(1035, 1024)] /\
  batches (acts_of (log_of sx_root sr_n [(0, true, EvStatus 2 2500 10); (0, true, EvFailure 0); (0, true, EvStatus 2 2500 10)])) = [(11, 1024)].
Proof. split; vm_compute; reflexivity. Qed.

(** As long as nothing fails the batches cover the range without gap or overlap. *)
Theorem C47_tiles root_of n l m f :
  reached root_of n -> frontier n f -> run root_of n l m -> throughout syncing l m ->
  (forall x, x ∈ l -> ~ range_failure x) ->
  exists g, frontier m g /\ tiles f (batches (acts_of l)) g.
Proof. exact (C47_tiles_pf root_of n l m f). Qed.
Print Assumptions C47_tiles.

Example C47_tiles_nonvacuous :
  reached sx_root sr_n /\ frontier sr_n 1035 /\ run sx_root sr_n sr_log sr_m /\ throughout syncing sr_log sr_m /\
  (forall x, x ∈ sr_log -> ~ range_failure x) /\ batches (acts_of sr_log) = [(1035, 1024); (2059, 942)].
Proof. exact (conj sr_reached (conj sr_frontier (conj sr_run (conj sr_throughout (conj sr_no_failure sr_batches))))). Qed.

(** The blocks of an answer that lie in the slots asked for reach the chain, in the
    order of the answer, and no others. *)
Theorem C47_delivers root_of pick ok n id p a e bs n' acts :
  reached root_of n -> waiting_range n id p a e -> sv_chain (nt_srv n) = true -> bs <> [] ->
  step root_of pick ok n (EvBlocks id bs) = Some (n', acts) ->
  handed_on acts = filter (fun b => a <= b_slot (sb_block b) <= e) bs.
Proof. exact (C47_delivers_pf root_of pick ok n id p a e bs n' acts). Qed.
Print Assumptions C47_delivers.

Example C47_delivers_nonvacuous :
  reached sx_root sr_m /\ waiting_range sr_m 2 1 2059 3000 /\ sv_chain (nt_srv sr_m) = true /\
  exists n' acts, step sx_root 0 true sr_m (EvBlocks 2 [sx_block 2058; sx_block 2059; sx_block 3000; sx_block 3001]) = Some (n', acts) /\
    handed_on acts = [sx_block 2059; sx_block 3000].
Proof. exact sr_delivers. Qed.

(** When the sync ends, as long as requests can be sent: a batch that reaches the target
    or behind which no peer has blocks is answered, or the only peer left fails. *)
Theorem C47_dropped root_of pick n ev n' acts :
  reached root_of n -> syncing n -> step root_of pick true n ev = Some (n', acts) ->
  ~ syncing n' <->
  (exists id p a e, waiting_range n id p a e /\
    ((exists bs, ev = EvBlocks id bs /\ bs <> [] /\
       (sv_chain (nt_srv n) = false \/ sync_range n a (e + 1) \/ forall q h, sync_peer n q h -> h <= e)) \/
     ((ev = EvFailure id \/ ev = EvBlocks id []) /\ forall q h, sync_peer n q h -> q = p))).
Proof. exact (C47_dropped_pf root_of pick n ev n' acts). Qed.
Print Assumptions C47_dropped.

Example C47_dropped_nonvacuous : exists acts, step sx_root 0 true sr_m (EvBlocks 2 [sx_block 2999]) =
    Some (end_of sx_root sr_m [(0, true, EvBlocks 2 [sx_block 2999])], acts) /\
  waiting_range sr_m 2 1 2059 3000 /\ syncing_b (end_of sx_root sr_m [(0, true, EvBlocks 2 [sx_block 2999])]) = false.
Proof. exact sr_last. Qed.

(** The rest of C47 fails: a sync may go on with no peer left and nothing asked. *)
Theorem C47_linger_refuted : exists n, reached sx_root n /\ syncing n /\ (forall p h, ~ sync_peer n p h) /\
  (forall id p a e, ~ waiting_range n id p a e).
Proof. exact C47_linger_pf. Qed.
Print Assumptions C47_linger_refuted.

(** With no request waiting (as after a failure) nothing is asked, whatever peers
    are left, until a peer announces a head above ours. *)
Theorem C47_stall root_of n l m :
  reached root_of n -> (forall id p a e, ~ waiting_range n id p a e) -> run root_of n l m ->
  (forall p h oh, happened (EvStatus p h oh) l -> h <= oh) ->
  batches (acts_of l) = [].
Proof. exact (C47_stall_pf root_of n l m). Qed.
Print Assumptions C47_stall.

Example C47_stall_nonvacuous :
  reached sx_root sf_n /\ (forall id p a e, ~ waiting_range sf_n id p a e) /\
  sync_range sf_n 11 3001 /\ sync_peer sf_n 2 2500 /\
  batches (acts_of (log_of sx_root sf_n [(0, true, EvStatus 2 2600 10)])) = [(11, 1024)].
Proof. exact (conj sf_reached (conj sf_idle (conj (proj1 sf_sync) (conj (proj2 sf_sync) sf_again)))). Qed.

(** ** C48 retries of block fetches *)

(** During a fetch: the delays are 5, 10, 20, ... ms, at most nine of them; one request
    for the start and one for each retry that came due: at most ten. *)
Theorem C48_attempts root_of r n0 x l m :
  session root_of r n0 x l m ->
  exists k, (k <= 9)%nat /\
    backoffs r (acts_of (x :: l)) = take k schedule /\
    length (requests r (acts_of (x :: l))) = (if decide (r ∈ nt_timers m) then k else S k).
Proof. exact (C48_attempts_pf root_of r n0 x l m). Qed.
Print Assumptions C48_attempts.

Example C48_attempts_nonvacuous :
  (exists x, sb_head = [x] /\ session sx_root 107 sb_n0 x sb_log sb_m) /\
  backoffs 107 (acts_of (sb_head ++ sb_log)) = schedule /\
  requests 107 (acts_of (sb_head ++ sb_log)) = [1; 2; 1; 2; 1; 2; 1; 2; 1; 2].
Proof. exact (conj sb_session (conj sb_backoffs sb_requests)). Qed.

(** A failure or an empty answer: after nine retries the fetch is given up, before that
    the next retry is set up. *)
Theorem C48_failure root_of r n0 x l m pick ok ev m' acts p :
  session root_of r n0 x l m -> step root_of pick ok m ev = Some (m', acts) ->
  peer_failed p r (mkEntry m ev ok acts) ->
  let k := length (backoffs r (acts_of (x :: l))) in
  (k = 9%nat -> ~ tracked m' r /\ quiet m' r /\ acts = []) /\
  ((k < 9)%nat -> tracked m' r /\ r ∈ nt_timers m' /\ acts = [RetryAfter r (5 * 2 ^ N.of_nat k)]).
Proof. exact (C48_failure_pf root_of r n0 x l m pick ok ev m' acts p). Qed.
Print Assumptions C48_failure.

Example C48_failure_nonvacuous :
  waiting_root sb_m 9 2 107 /\ goes sx_root sb_m [(0, true, EvFailure 9)] = true /\
  tracked_b 107 (end_of sx_root sb_m [(0, true, EvFailure 9)]) = false /\
  requests 107 (acts_of (log_of sx_root sb_m [(0, true, EvFailure 9); (2, true, EvFetch 107)])) = [2].
Proof. split; [exact sb_waiting|]. split; [vm_compute; reflexivity|exact sb_over]. Qed.

(** A request goes to a connected peer.  If that peer failed earlier in this fetch, then
    since that failure there was a request at which every connected peer had failed. *)
Theorem C48_avoid root_of r n0 x0 l x m p :
  session root_of r n0 x0 (l ++ [x]) m -> p ∈ requests r (en_acts x) ->
  p ∈ sv_connected (nt_srv (en_pre x)) /\
  forall la y lb, l = la ++ y :: lb -> peer_failed p r y ->
    exists l1 z l2, lb ++ [x] = l1 ++ z :: l2 /\ requests r (en_acts z) <> [] /\
      forall q, q ∈ sv_connected (nt_srv (en_pre z)) -> exists y', y' ∈ la ++ y :: l1 /\ peer_failed q r y'.
Proof. exact (C48_avoid_pf root_of r n0 x0 l x m p). Qed.
Print Assumptions C48_avoid.

(** The history of [C48_attempts_nonvacuous], in which every retry wishes for peer 1:
    the second request goes to peer 2, the third to peer 1 again. *)
Example C48_avoid_nonvacuous : exists l x, sb_log = l ++ [x] /\ 2 ∈ requests 107 (en_acts x).
Proof.
  destruct (exists_last (l := sb_log)) as (l & x & Hl). { intros H. by vm_compute in H. }
  exists l, x. split; [done|]. assert (last (map en_acts sb_log) = Some [SendRoot 9 2 107]) as H by (vm_compute; reflexivity).
  rewrite Hl, map_app in H. change (map en_acts [x]) with [en_acts x] in H. rewrite last_snoc in H. injection H as ->. vm_compute. left.
Qed.

(** An answer with the block ends the fetch and hands the block on. *)
Theorem C48_success root_of n id p r pick ok bs b m acts :
  reached root_of n -> waiting_root n id p r -> b ∈ bs -> root_of b = r ->
  step root_of pick ok n (EvBlocks id bs) = Some (m, acts) ->
  ~ tracked m r /\ quiet m r /\ (sv_chain (nt_srv n) = true -> Deliver b ∈ acts).
Proof. exact (C48_success_pf root_of n id p r pick ok bs b m acts). Qed.
Print Assumptions C48_success.

Example C48_success_nonvacuous : waiting_root sb_m 9 2 107 /\ sx_root (sx_block 7) = 107 /\
  exists acts, step sx_root 0 true sb_m (EvBlocks 9 [sx_block 7]) =
    Some (end_of sx_root sb_m [(0, true, EvBlocks 9 [sx_block 7])], acts) /\ Deliver (sx_block 7) ∈ acts.
Proof. exact (conj sb_waiting (conj eq_refl sb_answer)). Qed.

(** Without a fetch going on there is neither a request nor a retry for the block. *)
Theorem C48_quiet root_of n r : reached root_of n -> ~ tracked n r -> quiet n r.
Proof. exact (quiet_untracked root_of n r). Qed.
Print Assumptions C48_quiet.

(** One request for a block at a time, and no retry while it waits. *)
Theorem C48_one root_of n id p id' p' r :
  reached root_of n -> waiting_root n id p r ->
  r ∉ nt_timers n /\ (waiting_root n id' p' r -> id' = id /\ p' = p).
Proof. exact (one_at_a_time root_of n id p id' p' r). Qed.
Print Assumptions C48_one.
Theorem C48_one_retry root_of n : reached root_of n -> NoDup (nt_timers n).
Proof. exact (timers_once root_of n). Qed.
Print Assumptions C48_one_retry.

Example C48_one_nonvacuous : reached sx_root sm_n /\ waiting_root sm_n 0 1 107.
Proof. exact (conj sm_reached sm_waiting). Qed.

(** The rest of C48 fails: after an empty answer the number of the request stays in the
    table of outstanding requests for good, with no fetch going on. *)
Theorem C48_leak_refuted : exists n id k, reached sx_root n /\ (forall r, ~ tracked n r) /\ nt_live n = ∅ /\ nt_timers n = [] /\
  sv_out (nt_srv n) !! id = Some k.
Proof. exact C48_leak_pf. Qed.
Print Assumptions C48_leak_refuted.

(** ** C49 every fetch can be retried *)

(** A failure, an empty answer or an answer with the block: the block is fetched no
    more, or a retry is under way.  Missing for C49: an answer with other blocks only. *)
Theorem C49_retry_partial root_of n id p r pick ok ev m acts :
  reached root_of n -> waiting_root n id p r -> step root_of pick ok n ev = Some (m, acts) ->
  (ev = EvFailure id \/ ev = EvBlocks id [] \/ exists b bs, ev = EvBlocks id bs /\ b ∈ bs /\ root_of b = r) ->
  ~ tracked m r \/ (exists ms, RetryAfter r ms ∈ acts /\ r ∈ nt_timers m).
Proof. exact (C49_retry_pf root_of n id p r pick ok ev m acts). Qed.
Print Assumptions C49_retry_partial.

(** A block not being fetched is requested when asked for, if a peer is connected. *)
Theorem C49_fetch root_of n r pick m acts :
  reached root_of n -> ~ tracked n r -> sv_connected (nt_srv n) <> ∅ ->
  step root_of pick true n (EvFetch r) = Some (m, acts) ->
  exists id p, acts = [SendRoot id p r] /\ p ∈ sv_connected (nt_srv n) /\ waiting_root m id p r.
Proof. exact (C49_fetch_pf root_of n r pick m acts). Qed.
Print Assumptions C49_fetch.

Example C49_fetch_nonvacuous :
  tracked_b 107 sb_n0 = false /\ acts_of (log_of sx_root sb_n0 [(1, true, EvFetch 107)]) = [SendRoot 0 1 107].
Proof. split; vm_compute; reflexivity. Qed.

(** An answer with other blocks only: no retry, yet the fetch counts as going on. *)
Theorem C49_mismatch root_of n id p r pick ok bs m acts :
  reached root_of n -> waiting_root n id p r -> bs <> [] -> (forall b, b ∈ bs -> root_of b <> r) ->
  step root_of pick ok n (EvBlocks id bs) = Some (m, acts) ->
  acts = [] /\ tracked m r /\ quiet m r.
Proof. exact (C49_mismatch_pf root_of n id p r pick ok bs m acts). Qed.
Print Assumptions C49_mismatch.

(** From then on, whatever happens, the block is never requested again. *)
Theorem C49_stuck root_of n r l m :
  reached root_of n -> tracked n r -> quiet n r -> run root_of n l m ->
  requests r (acts_of l) = [] /\ tracked m r /\ quiet m r.
Proof. exact (C49_stuck_pf root_of n r l m). Qed.
Print Assumptions C49_stuck.

Example C49_stuck_nonvacuous : reached sx_root sm_m /\ tracked sm_m 107 /\ quiet sm_m 107 /\
  acts_of (log_of sx_root sm_m [(1, true, EvFetch 107); (1, true, EvFetch 108)]) = [SendRoot 1 1 108].
Proof. split; [exact sm_m_reached|]. split; [exact sm_tracked|]. split; [exact sm_quiet|]. vm_compute. reflexivity. Qed.

(** So C49 fails. *)
Theorem C49_refuted : exists n id p r bs m acts,
  reached sx_root n /\ waiting_root n id p r /\ step sx_root 0 true n (EvBlocks id bs) = Some (m, acts) /\
  acts = [] /\ tracked m r /\ quiet m r /\
  forall l m', run sx_root m l m' -> requests r (acts_of l) = [] /\ tracked m' r.
Proof. exact C49_refuted_pf. Qed.
Print Assumptions C49_refuted.
