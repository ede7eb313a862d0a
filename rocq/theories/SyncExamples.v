(** Concrete histories of fetching and range sync. *)
From Verif Require Export SyncSpec.
From Verif Require Import SyncProofs SyncRange SyncRoot.
Local Open Scope N_scope.

(** Executing a list of events. *)
Section Exec.
  Context (root_of : SignedBlock -> H256).
  Fixpoint exec (n : Net) (evs : list (N * bool * Event)) : option (list Entry * Net) :=
    match evs with
    | [] => Some ([], n)
    | (pick, ok, ev) :: rest =>
        match step root_of pick ok n ev with
        | None => None
        | Some (n', acts) =>
            match exec n' rest with
            | None => None
            | Some (l, m) => Some (mkEntry n ev ok acts :: l, m)
            end
        end
    end.
  Definition log_of n evs := match exec n evs with Some (l, _) => l | None => [] end.
  Definition end_of n evs := match exec n evs with Some (_, m) => m | None => n end.
  Definition goes n evs : bool := match exec n evs with Some _ => true | None => false end.

  Lemma exec_run n evs l m : exec n evs = Some (l, m) -> run root_of n l m.
  Proof using.
    revert n l m. induction evs as [|[[pick ok] ev] evs IH]; intros n l m; cbn.
    - intros [= <- <-]. constructor.
    - destruct (step root_of pick ok n ev) as [[n' acts]|] eqn:Hs; [|done].
      destruct (exec n' evs) as [[l' m']|] eqn:He; [|done]. intros [= <- <-].
      econstructor; [exact Hs|]. by apply IH.
  Qed.
  Lemma goes_run n evs : goes n evs = true -> run root_of n (log_of n evs) (end_of n evs).
  Proof using.
    unfold goes, log_of, end_of. destruct (exec n evs) as [[l m]|] eqn:He; [|done]. intros _. by apply exec_run with evs.
  Qed.
  Lemma goes_reached evs : goes net0 evs = true -> reached root_of (end_of net0 evs).
  Proof using. intros H. eexists. by apply goes_run. Qed.
  Lemma goes_step n pick ok ev :
    goes n [(pick, ok, ev)] = true -> exists acts, step root_of pick ok n ev = Some (end_of n [(pick, ok, ev)], acts).
  Proof using.
    unfold goes, end_of, exec. destruct (step root_of pick ok n ev) as [[n' acts]|]; [|done]. eauto.
  Qed.
End Exec.

(** Checks on states. *)
Definition syncing_b (n : Net) : bool := match sv_range (nt_srv n) with Some _ => true | None => false end.
Lemma syncing_b_spec n : syncing_b n = true -> syncing n.
Proof. unfold syncing_b, syncing. destruct (sv_range _); [eauto|done]. Qed.
Definition tracked_b (r : H256) (n : Net) : bool := match sv_pending (nt_srv n) !! r with Some _ => true | None => false end.
Lemma tracked_b_spec r n : tracked_b r n = true <-> tracked n r.
Proof. unfold tracked_b, tracked. destruct (_ !! r); [naive_solver|]. split; [done|]. by intros [? ?]. Qed.
Lemma untracked_b_spec r n : tracked_b r n = false -> ~ tracked n r.
Proof. intros H Ht%tracked_b_spec. congruence. Qed.
Definition all_b (f : Net -> bool) (l : list Entry) (m : Net) : bool := forallb (fun x => f (en_pre x)) l && f m.
Lemma all_b_spec f (P : Net -> Prop) l m : (forall n, f n = true -> P n) -> all_b f l m = true -> throughout P l m.
Proof.
  intros H. unfold all_b. rewrite andb_true_iff, forallb_forall. intros [H1 H2]. split; [|auto].
  intros x Hx. apply H, H1. by apply elem_of_list_In.
Qed.
(** The requests waiting, as a list. *)
Definition live_list (n : Net) : list (N * (N * Kind)) := map_to_list (nt_live n).
Lemma live_list_spec n id k : (id, k) ∈ live_list n <-> nt_live n !! id = Some k.
Proof. unfold live_list. apply elem_of_map_to_list. Qed.
Definition no_range_b (n : Net) : bool := forallb (fun x => match x.2.2 with KRange _ _ => false | _ => true end) (live_list n).
Lemma no_range_b_spec n : no_range_b n = true -> forall id p a e, ~ waiting_range n id p a e.
Proof.
  unfold no_range_b. rewrite forallb_forall. intros H id p a e Hw. apply live_list_spec, elem_of_list_In in Hw.
  by apply H in Hw.
Qed.
Definition idle_b (n : Net) : bool := match live_list n, nt_timers n with [], [] => true | _, _ => false end.
Lemma idle_b_spec n r : idle_b n = true -> quiet n r.
Proof.
  unfold idle_b. destruct (live_list n) as [|] eqn:Hl; [|done]. destruct (nt_timers n) as [|] eqn:Ht; [|done]. intros _. split.
  - intros id p Hw. apply live_list_spec in Hw. rewrite Hl in Hw. by apply elem_of_nil in Hw.
  - rewrite Ht. by intros ?%elem_of_nil.
Qed.

(** Blocks of the examples: the root is the slot plus 100. *)
Definition sx_root (b : SignedBlock) : H256 := b_slot (sb_block b) + 100.
Definition sx_block (slot : N) : SignedBlock := mkSB (mkBlock slot 0 0 0 []) 0.

(** ** A range sync of slots 11 to 3000 from two peers. *)
Definition sr_start : list (N * bool * Event) :=
  [(0, true, EvInit); (0, true, EvConnected 1 true); (0, true, EvConnected 2 true); (0, true, EvStatus 1 3000 10)].
Definition sr_n := end_of sx_root net0 sr_start.
Definition sr_more : list (N * bool * Event) :=
  [(0, true, EvStatus 2 2500 10); (0, true, EvBlocks 0 [sx_block 11; sx_block 7]); (0, true, EvBlocks 1 [sx_block 1500])].
Definition sr_log := log_of sx_root sr_n sr_more.
Definition sr_m := end_of sx_root sr_n sr_more.
Lemma sr_reached : reached sx_root sr_n.
Proof. apply goes_reached. vm_compute. reflexivity. Qed.
Lemma sr_run : run sx_root sr_n sr_log sr_m.
Proof. apply goes_run. vm_compute. reflexivity. Qed.
Lemma sr_throughout : throughout syncing sr_log sr_m.
Proof. apply (all_b_spec syncing_b). { apply syncing_b_spec. } vm_compute. reflexivity. Qed.
Lemma sr_frontier : frontier sr_n 1035.
Proof. left. exists 0, 1, 11, 1034. split; [|done]. unfold waiting_range. apply live_list_spec, elem_of_list_In. vm_compute. by left. Qed.
Lemma sr_batches : batches (acts_of sr_log) = [(1035, 1024); (2059, 942)].
Proof. vm_compute. reflexivity. Qed.
Lemma sr_no_failure x : x ∈ sr_log -> ~ range_failure x.
Proof.
  intros Hx%elem_of_list_In (id & p & a & e & _ & Hev). vm_compute in Hx.
  destruct Hx as [<-|[<-|[<-|[]]]]; cbn in Hev; by destruct Hev.
Qed.
(** The last batch answered: the sync is over. *)
Lemma sr_last : exists acts, step sx_root 0 true sr_m (EvBlocks 2 [sx_block 2999]) =
    Some (end_of sx_root sr_m [(0, true, EvBlocks 2 [sx_block 2999])], acts) /\
  waiting_range sr_m 2 1 2059 3000 /\ syncing_b (end_of sx_root sr_m [(0, true, EvBlocks 2 [sx_block 2999])]) = false.
Proof.
  destruct (goes_step sx_root sr_m 0 true (EvBlocks 2 [sx_block 2999])) as [acts Ha]; [vm_compute; reflexivity|].
  exists acts. split; [exact Ha|]. split; [|vm_compute; reflexivity].
  unfold waiting_range. apply live_list_spec, elem_of_list_In. vm_compute. by left.
Qed.
(** Only the blocks of the range are handed on. *)
Lemma sr_delivers :
  reached sx_root sr_m /\ waiting_range sr_m 2 1 2059 3000 /\ sv_chain (nt_srv sr_m) = true /\
  exists n' acts, step sx_root 0 true sr_m (EvBlocks 2 [sx_block 2058; sx_block 2059; sx_block 3000; sx_block 3001]) = Some (n', acts) /\
    handed_on acts = [sx_block 2059; sx_block 3000].
Proof.
  destruct sr_last as (acts & _ & Hw & _).
  split; [exact (reached_run _ _ _ _ sr_reached sr_run)|]. split; [exact Hw|]. split; [vm_compute; reflexivity|].
  eexists _, _. split; [vm_compute; reflexivity|]. vm_compute. reflexivity.
Qed.

(** A failure in the middle: nothing more is asked although a peer is left. *)
Definition sf_evs : list (N * bool * Event) := sr_start ++ [(0, true, EvStatus 2 2500 10); (0, true, EvFailure 0)].
Definition sf_n := end_of sx_root net0 sf_evs.
Lemma sf_reached : reached sx_root sf_n.
Proof. apply goes_reached. vm_compute. reflexivity. Qed.
Lemma sf_idle : forall id p a e, ~ waiting_range sf_n id p a e.
Proof. apply no_range_b_spec. vm_compute. reflexivity. Qed.
Lemma sf_sync : sync_range sf_n 11 3001 /\ sync_peer sf_n 2 2500.
Proof. split; eexists; vm_compute; split_and!; reflexivity. Qed.
(** The next status with a higher head asks for the failed batch again. *)
Lemma sf_again : batches (acts_of (log_of sx_root sf_n [(0, true, EvStatus 2 2600 10)])) = [(11, 1024)].
Proof. vm_compute. reflexivity. Qed.

(** A sync that lingers without peers. *)
Definition sl_evs : list (N * bool * Event) :=
  [(0, true, EvInit); (0, true, EvConnected 1 true); (0, true, EvConnected 2 true);
   (0, true, EvStatus 1 100 10); (0, true, EvStatus 2 5000 10); (2, true, EvBlocks 0 [sx_block 50]);
   (0, true, EvStatus 1 200 10); (0, true, EvFailure 1); (0, true, EvStatus 1 50 20)].
Lemma C47_linger_pf : exists n, reached sx_root n /\ syncing n /\ (forall p h, ~ sync_peer n p h) /\
  (forall id p a e, ~ waiting_range n id p a e).
Proof.
  exists (end_of sx_root net0 sl_evs). split_and!.
  - apply goes_reached. vm_compute. reflexivity.
  - apply syncing_b_spec. vm_compute. reflexivity.
  - intros p h (r & Hr & Hp).
    assert (match sv_range (nt_srv (end_of sx_root net0 sl_evs)) with Some r => map_to_list (rs_peers r) = [] | None => True end) as He
      by (vm_compute; reflexivity).
    rewrite Hr in He. apply elem_of_map_to_list in Hp. rewrite He in Hp. by apply elem_of_nil in Hp.
  - apply no_range_b_spec. vm_compute. reflexivity.
Qed.

(** ** A fetch with ten attempts. *)
Definition sb_start : list (N * bool * Event) :=
  [(0, true, EvInit); (0, true, EvConnected 1 true); (0, true, EvConnected 2 true)].
Definition sb_n0 := end_of sx_root net0 sb_start.
Definition sb_first : N * bool * Event := (1, true, EvFetch 107).
Definition sb_round (i : N) : list (N * bool * Event) := [(1, true, EvFailure i); (1, true, EvRetry 107)].
Definition sb_evs : list (N * bool * Event) :=
  sb_round 0 ++ sb_round 1 ++ sb_round 2 ++ sb_round 3 ++ sb_round 4 ++ sb_round 5 ++ sb_round 6 ++ sb_round 7 ++ sb_round 8.
Definition sb_head : list Entry := log_of sx_root sb_n0 [sb_first].
Definition sb_n1 := end_of sx_root sb_n0 [sb_first].
Definition sb_log := log_of sx_root sb_n1 sb_evs.
Definition sb_m := end_of sx_root sb_n1 sb_evs.

(** [session] from executed events. *)
Lemma exec_session root_of r evs0 first evs x :
  goes root_of net0 evs0 = true ->
  log_of root_of (end_of root_of net0 evs0) [first] = [x] ->
  goes root_of (end_of root_of net0 evs0) [first] = true ->
  goes root_of (end_of root_of (end_of root_of net0 evs0) [first]) evs = true ->
  tracked_b r (end_of root_of net0 evs0) = false ->
  all_b (tracked_b r) (log_of root_of (end_of root_of (end_of root_of net0 evs0) [first]) evs)
    (end_of root_of (end_of root_of (end_of root_of net0 evs0) [first]) evs) = true ->
  session root_of r (end_of root_of net0 evs0) x (log_of root_of (end_of root_of (end_of root_of net0 evs0) [first]) evs)
    (end_of root_of (end_of root_of (end_of root_of net0 evs0) [first]) evs).
Proof.
  intros H1 H2 H3 H4 H5 H6. split_and!.
  - by apply goes_reached.
  - by apply untracked_b_spec.
  - apply goes_run in H3, H4. rewrite H2 in H3. exact (run_app _ _ _ _ _ _ H3 H4).
  - apply (all_b_spec (tracked_b r)); [|done]. intros n. by apply tracked_b_spec.
Qed.
Lemma sb_session : exists x, sb_head = [x] /\ session sx_root 107 sb_n0 x sb_log sb_m.
Proof.
  destruct sb_head as [|x [|]] eqn:Hh; [by vm_compute in Hh| |by vm_compute in Hh].
  exists x. split; [done|]. unfold sb_log, sb_m, sb_n1, sb_n0. apply exec_session; try (vm_compute; reflexivity). exact Hh.
Qed.
Lemma sb_backoffs : backoffs 107 (acts_of (sb_head ++ sb_log)) = schedule.
Proof. vm_compute. reflexivity. Qed.
(** The peers asked: a failed one is asked again only after both failed. *)
Lemma sb_requests : requests 107 (acts_of (sb_head ++ sb_log)) = [1; 2; 1; 2; 1; 2; 1; 2; 1; 2].
Proof. vm_compute. reflexivity. Qed.
Lemma sb_waiting : waiting_root sb_m 9 2 107.
Proof. unfold waiting_root. apply live_list_spec, elem_of_list_In. vm_compute. by left. Qed.
(** The last failure ends it, and a later fetch starts over. *)
Lemma sb_over : tracked_b 107 (end_of sx_root sb_m [(0, true, EvFailure 9)]) = false /\
  requests 107 (acts_of (log_of sx_root sb_m [(0, true, EvFailure 9); (2, true, EvFetch 107)])) = [2].
Proof. split; vm_compute; reflexivity. Qed.

(** An answer with the block. *)
Lemma sb_answer : exists acts, step sx_root 0 true sb_m (EvBlocks 9 [sx_block 7]) =
    Some (end_of sx_root sb_m [(0, true, EvBlocks 9 [sx_block 7])], acts) /\ Deliver (sx_block 7) ∈ acts.
Proof.
  destruct (goes_step sx_root sb_m 0 true (EvBlocks 9 [sx_block 7])) as [acts Ha]; [vm_compute; reflexivity|].
  exists acts. split; [exact Ha|].
  assert (acts_of (log_of sx_root sb_m [(0, true, EvBlocks 9 [sx_block 7])]) = [Deliver (sx_block 7)]) as He by (vm_compute; reflexivity).
  unfold log_of, exec in He. rewrite Ha in He. cbn in He. rewrite app_nil_r in He. rewrite He. left.
Qed.

(** ** What an empty answer leaves behind. *)
Definition sk_evs : list (N * bool * Event) :=
  [(0, true, EvInit); (0, true, EvConnected 1 true); (1, true, EvFetch 107); (0, true, EvBlocks 0 []);
   (0, true, EvClosed 1 true); (0, true, EvRetry 107)].
Lemma C48_leak_pf : exists n id k, reached sx_root n /\ (forall r, ~ tracked n r) /\ nt_live n = ∅ /\ nt_timers n = [] /\
  sv_out (nt_srv n) !! id = Some k.
Proof.
  exists (end_of sx_root net0 sk_evs), 0, (KRoot 107). split_and!.
  - apply goes_reached. vm_compute. reflexivity.
  - intros r [pd Hp].
    assert (map_to_list (sv_pending (nt_srv (end_of sx_root net0 sk_evs))) = []) as He by (vm_compute; reflexivity).
    apply elem_of_map_to_list in Hp. rewrite He in Hp. by apply elem_of_nil in Hp.
  - apply map_to_list_empty_iff. vm_compute. reflexivity.
  - vm_compute. reflexivity.
  - vm_compute. reflexivity.
Qed.

(** ** A wrong block in answer: the fetch is stuck. *)
Definition sm_start : list (N * bool * Event) := sb_start ++ [(1, true, EvFetch 107)].
Definition sm_n := end_of sx_root net0 sm_start.
Definition sm_m := end_of sx_root sm_n [(0, true, EvBlocks 0 [sx_block 8])].
Lemma sm_reached : reached sx_root sm_n.
Proof. apply goes_reached. vm_compute. reflexivity. Qed.
Lemma sm_waiting : waiting_root sm_n 0 1 107.
Proof. unfold waiting_root. apply live_list_spec, elem_of_list_In. vm_compute. by left. Qed.
Lemma sm_step : exists acts, step sx_root 0 true sm_n (EvBlocks 0 [sx_block 8]) = Some (sm_m, acts).
Proof. apply (goes_step sx_root sm_n 0 true (EvBlocks 0 [sx_block 8])). vm_compute. reflexivity. Qed.
Lemma sm_m_reached : reached sx_root sm_m.
Proof. destruct sm_step as [acts H]. exact (reached_step _ _ _ _ _ _ _ sm_reached H). Qed.
Lemma sm_tracked : tracked sm_m 107.
Proof. apply tracked_b_spec. vm_compute. reflexivity. Qed.
Lemma sm_quiet : quiet sm_m 107.
Proof. apply idle_b_spec. vm_compute. reflexivity. Qed.
Lemma C49_refuted_pf : exists n id p r bs m acts,
  reached sx_root n /\ waiting_root n id p r /\ step sx_root 0 true n (EvBlocks id bs) = Some (m, acts) /\
  acts = [] /\ tracked m r /\ quiet m r /\
  forall l m', run sx_root m l m' -> requests r (acts_of l) = [] /\ tracked m' r.
Proof.
  destruct sm_step as [acts Hs].
  exists sm_n, 0, 1, 107, [sx_block 8], sm_m, acts. split_and!; [exact sm_reached|exact sm_waiting|exact Hs| |exact sm_tracked|exact sm_quiet|].
  - destruct (C49_mismatch_pf sx_root sm_n 0 1 107 0 true [sx_block 8] sm_m acts sm_reached sm_waiting) as [Ha _]; [done| |exact Hs|exact Ha].
    intros b Hb%elem_of_list_singleton. subst b. by vm_compute.
  - intros l m' Hr. destruct (C49_stuck_pf sx_root _ _ _ _ sm_m_reached sm_tracked sm_quiet Hr) as (H1 & H2 & _). done.
Qed.
