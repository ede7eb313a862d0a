(** The event monitor. *)
From Coq Require Import String.
From Verif Require Import MonitorSpec MonitorProofs.
Local Open Scope N_scope.
Local Open Scope string_scope.

(** ** C78 the event monitor's dashboard *)

(** With plausible slot geometry, and a clock that is not within eight slots of the largest
    representable time, a frame never makes the collector panic.  The event is dropped if and
    only if its slot starts more than eight slots after the arrival (after genesis, for an
    arrival before it), and its offset is the exact time from the start of its slot to the
    arrival. *)
Theorem C78_stamp c topic slot body arrival t :
  timing_valid t = true -> slot < two64 -> (0 <= arrival < 2 ^ 63 - 28800000)%Z ->
  let start (s : N) := (Z.of_N (tm_genesis t) * 1000 + Z.of_N s * Z.of_N (tm_ms t))%Z in
  exists r, normalize c (Some (topic, slot, body)) arrival t = Ok r /\
    (r <> None <-> (start slot <= Z.max arrival (start 0%N) + 8 * Z.of_N (tm_ms t))%Z) /\
    forall e, r = Some e ->
      ev_node e = c /\ ev_topic e = topic /\ ev_slot e = slot /\ ev_body e = body /\ ev_arrival e = arrival /\
      ev_offset e = (arrival - start slot)%Z.
Proof. exact (stamp_pf c topic slot body arrival t). Qed.
Print Assumptions C78_stamp.

(** A tab whose subscription is served (at [m1]) before its history request (at [m2]): every
    event sent since the history was last empty (at the start or after a reset, [mr]) reaches
    it by one of the two ways, unless it was on its way during that reset, or is outdated when the
    history is served, or the history is reset in between. *)
Theorem C78_backfill_partial g hs l0 mr P0 l1 m1 P1 l2 m2 P2 l3 m P3 k e :
  mrun (mon_start g hs) l0 mr P0 -> (l0 = [] \/ exists l', l0 = l' ++ [AReset])%list ->
  mrun mr l1 m1 P1 -> mrun m1 l2 m2 P2 -> AReset ∉ (l1 ++ l2)%list -> mrun m2 l3 m P3 ->
  (length (mo_sent mr) <= k)%nat -> mo_sent m !! k = Some (MChain e) ->
  MChain e ∈ live m1 m \/ e ∈ snapshot (mo_hist m2) \/ in_flight mr e \/ outdated (N.max hs 1) (P1 ++ P2) e.
Proof. exact (backfill_run g hs l0 mr P0 l1 m1 P1 l2 m2 P2 l3 m P3 k e). Qed.
Print Assumptions C78_backfill_partial.

(** The history never holds more than 50000 events, and a tab is given events in the order
    in which they came in, at most 2000 of each node and topic. *)
Theorem C78_bounded g hs l m P :
  mrun (mon_start g hs) l m P ->
  lenN (hi_events (mo_hist m)) <= 50000 /\ snapshot (mo_hist m) `sublist_of` P /\
  forall node topic, lenN (filter (fun e => ev_node e = node /\ ev_topic e = topic) (snapshot (mo_hist m))) <= 2000.
Proof. exact (bounded_pf g hs l m P). Qed.
Print Assumptions C78_bounded.

(** An event stamped with a geometry is sent after the announcement of that geometry, unless
    it is the one the monitor started with. *)
Theorem C78_announced g hs l m P k e :
  mrun (mon_start g hs) l m P -> mo_sent m !! k = Some (MChain e) ->
  ev_geo e = g \/ exists j, (j < k)%nat /\ mo_sent m !! j = Some (MGeometry (ev_geo e)).
Proof. exact (announced_pf g hs l m P k e). Qed.
Print Assumptions C78_announced.

(** A tab that read the geometry at [mM], not between an announcement and the switch to it,
    and subscribed at [mS] before another announcement, is told of every later geometry
    before the first event stamped with it. *)
Theorem C78_told_partial mM l1 mS P1 l2 m P2 k e :
  (forall t, mo_ref mM <> RAnnounced t) -> mrun mM l1 mS P1 -> AAnnounce ∉ l1 -> mrun mS l2 m P2 ->
  live mS m !! k = Some (MChain e) ->
  ev_geo e = mo_timing mM \/ (exists j, (j < k)%nat /\ live mS m !! j = Some (MGeometry (ev_geo e))) \/ busy mM e.
Proof. exact (told_pf mM l1 mS P1 l2 m P2 k e). Qed.
Print Assumptions C78_told_partial.

(** *** Examples and refutations *)
Definition mo_g1 : Timing := mkTiming 0 4000 5.
Definition mo_g2 : Timing := mkTiming 4000 4000 5.
Fixpoint mo_exec (m : Mon) (l : list Action) : option (Mon * list Ev) :=
  match l with
  | [] => Some (m, [])
  | a :: l' => m1 ← mexec m a; x ← mo_exec m1 l'; Some (x.1, pushed_by m a ++ x.2)%list
  end.
Lemma mo_exec_run l : forall m m' P, mo_exec m l = Some (m', P) -> mrun m l m' P.
Proof.
  induction l as [|a l IH]; intros m m' P H; cbn in H.
  - injection H as <- <-. constructor.
  - destruct (mexec m a) as [m1|] eqn:E1; [|done]. cbn in H. destruct (mo_exec m1 l) as [[m2 P2]|] eqn:E2; [|done].
    injection H as <- <-. change (a :: l) with ([a] ++ l)%list. eapply mrun_app; [|by apply IH].
    change [a] with ([] ++ [a])%list. change (pushed_by m a) with ([] ++ pushed_by m a)%list. econstructor; [constructor|done].
Qed.
Definition mo_at (m : Mon) (l : list Action) : Mon := match mo_exec m l with Some x => x.1 | None => m end.
Definition mo_put (m : Mon) (l : list Action) : list Ev := match mo_exec m l with Some x => x.2 | None => [] end.
Lemma mo_run m l : bool_decide (is_Some (mo_exec m l)) = true -> mrun m l (mo_at m l) (mo_put m l).
Proof.
  intros H. apply bool_decide_eq_true in H as [[m' P] H]. unfold mo_at, mo_put. rewrite H. by apply mo_exec_run.
Qed.
Definition mo_0 : Mon := mon_start mo_g1 64.
(** A block of slot [s] from node [c], arriving in the middle of the slot. *)
Definition mo_frame (t : Timing) (c : string) (s : N) : Action :=
  AFrame c (Some ("block", s, 0)) (Z.of_N (tm_genesis t * 1000 + s * tm_ms t + 2000)).
Definition mo_event (t : Timing) (c : string) (s : N) : list Action := [mo_frame t c s; APush c; ASend c].

(** Two nodes' events, one sent before and one after the subscription; a frame from the far
    future is dropped; then a change of geometry. *)
Definition mo_l1 : list Action := (mo_event mo_g1 "a" 1000 ++ [mo_frame mo_g1 "b" 1000; APush "b"])%list.
Definition mo_l2 : list Action := [ASend "b"; AFrame "a" (Some ("block", 2000, 0)) 4002000].
Definition mo_l3 : list Action := ([AFetch mo_g2; AReset; AAnnounce; ASwitch] ++ mo_event mo_g2 "a" 1)%list.
Definition mo_m1 : Mon := mo_at mo_0 mo_l1.
Definition mo_m2 : Mon := mo_at mo_m1 mo_l2.
Definition mo_m3 : Mon := mo_at mo_m2 mo_l3.
Example C78_nonvacuous :
  mrun mo_0 mo_l1 mo_m1 (mo_put mo_0 mo_l1) /\ mrun mo_m1 mo_l2 mo_m2 (mo_put mo_m1 mo_l2) /\
  mrun mo_m2 mo_l3 mo_m3 (mo_put mo_m2 mo_l3) /\
  map (fun e => (ev_node e, ev_slot e, ev_offset e)) (snapshot (mo_hist mo_m2)) = [("a", 1000, 2000%Z); ("b", 1000, 2000%Z)] /\
  map (fun x => match x with MChain e => Some (ev_node e, ev_slot e, ev_offset e) | _ => None end) (live mo_m1 mo_m3) =
    [Some ("b", 1000, 2000%Z); None; Some ("a", 1, 2000%Z)] /\
  map (fun e => (ev_node e, ev_slot e, ev_offset e)) (snapshot (mo_hist mo_m3)) = [("a", 1, 2000%Z)].
Proof.
  split; [apply mo_run; vm_compute; reflexivity|]. split; [apply mo_run; vm_compute; reflexivity|].
  split; [apply mo_run; vm_compute; reflexivity|].
  split; [vm_compute; reflexivity|]. split; vm_compute; reflexivity.
Qed.

Lemma mo_quiet m l : mo_ref (mo_at m l) = RIdle ->
  map snd (map_to_list (mo_coll (mo_at m l))) = map (fun _ => CIdle) (map_to_list (mo_coll (mo_at m l))) -> quiet (mo_at m l).
Proof.
  intros H1 H2. split; [done|]. intros e [c Hc].
  assert (forall x, mo_coll (mo_at m l) !! c = Some x -> x = CIdle) as G.
  { intros x Hx. apply elem_of_map_to_list in Hx. revert H2 Hx. generalize (map_to_list (mo_coll (mo_at m l))). intros L.
    induction L as [|y L IH]; intros H Hx; cbn in H; [by apply not_elem_of_nil in Hx|]. injection H as Hy H.
    apply elem_of_cons in Hx as [<-|Hx]; [done|by apply IH]. }
  destruct Hc as [Hc|Hc]; by specialize (G _ Hc).
Qed.

Lemma mo_quiet0 : quiet mo_0.
Proof. split; [done|]. intros e [c [H|H]]; change (mo_coll mo_0) with (∅ : gmap string CPhase) in H; by rewrite lookup_empty in H. Qed.

(** Missing: the page opens the stream and requests the history without waiting for the
    stream to be open.  Served in the other order, an event in between is lost to the tab,
    although the history is never reset and nothing is outdated. *)
Theorem C78_order_refuted : exists g hs l1 m1 P1 l2 m2 P2 e,
  mrun (mon_start g hs) l1 m1 P1 /\ mrun m1 l2 m2 P2 /\ AReset ∉ (l1 ++ l2)%list /\
  quiet m1 /\ quiet m2 /\ MChain e ∈ mo_sent m2 /\ ~ outdated (N.max hs 1) (P1 ++ P2) e /\
  e ∉ snapshot (mo_hist m1) /\ forall l3 m P3, mrun m2 l3 m P3 -> forall k, (length (mo_sent m2) <= k)%nat ->
    mo_sent m !! k = Some (MChain e) -> e ∈ P3.
Proof.
  set (l2 := mo_event mo_g1 "a" 1000). set (m2 := mo_at mo_0 l2).
  exists mo_g1, 64, [], mo_0, [], l2, m2, (mo_put mo_0 l2), (mkEv "a" "block" 1000 4002000 2000 0 mo_g1).
  split; [constructor|]. split; [apply mo_run; vm_compute; reflexivity|].
  split; [intros H; apply elem_of_list_In in H; vm_compute in H; by intuition discriminate|].
  split; [exact mo_quiet0|].
  assert (quiet m2) as Hq by (apply (mo_quiet mo_0 l2); [vm_compute; reflexivity|vm_compute; reflexivity]).
  split; [exact Hq|]. split; [apply elem_of_list_In; vm_compute; by left|].
  split.
  { change (mo_put mo_0 l2) with [mkEv "a" "block" 1000 4002000 2000 0 mo_g1]. cbn [app].
    intros (i & Hi & [(f & Hf & Hs)|[H|H]]).
    - apply elem_of_list_singleton in Hf as ->. cbn in Hs. lia.
    - destruct i as [|i]; [|done]. vm_compute in H. by apply H.
    - destruct i as [|i]; [|done]. vm_compute in H. by apply H. }
  split; [intros H; apply elem_of_list_In in H; vm_compute in H; done|].
  intros l3 m P3 Hr k Hk Hs. destruct (mrun_pushed _ _ _ _ Hr) as [_ H]. destruct (H k _ Hk Hs) as [[c Hc]|Hin]; [|done].
  exfalso. eapply (proj2 Hq). exists c. right. exact Hc.
Qed.
Print Assumptions C78_order_refuted.

(** ... and the page reads the geometry before it opens the stream: a change in between is
    never announced to it, and all it gets from then on is stamped with a geometry it does
    not know. *)
Theorem C78_told_refuted : exists g hs l1 mM P1 l2 mS P2 l3 m P3 e,
  mrun (mon_start g hs) l1 mM P1 /\ mrun mM l2 mS P2 /\ mrun mS l3 m P3 /\ quiet mM /\ quiet mS /\ quiet m /\
  live mS m = [MChain e] /\ ev_geo e <> mo_timing mM.
Proof.
  set (l2 := [AFetch mo_g2; AReset; AAnnounce; ASwitch]). set (l3 := mo_event mo_g2 "a" 1).
  exists mo_g1, 64, [], mo_0, [], l2, (mo_at mo_0 l2), (mo_put mo_0 l2), l3, (mo_at (mo_at mo_0 l2) l3), (mo_put (mo_at mo_0 l2) l3),
    (mkEv "a" "block" 1 4006000 2000 0 mo_g2).
  split; [constructor|]. split; [apply mo_run; vm_compute; reflexivity|]. split; [apply mo_run; vm_compute; reflexivity|].
  split; [exact mo_quiet0|].
  split; [apply mo_quiet; [vm_compute; reflexivity|vm_compute; reflexivity]|].
  split; [apply mo_quiet; [vm_compute; reflexivity|vm_compute; reflexivity]|].
  split; [vm_compute; reflexivity|vm_compute; discriminate].
Qed.
Print Assumptions C78_told_refuted.

(** ... and an event stamped before the change but put into the history after its reset
    stays there: the history mixes events of two chains, and the old chain's high slot has
    pushed out an event of the new one. *)
Theorem C78_mixed_refuted : exists g hs l m P e f x,
  mrun (mon_start g hs) l m P /\ quiet m /\ snapshot (mo_hist m) = [e; f] /\
  ev_geo e <> mo_timing m /\ ev_geo f = mo_timing m /\
  x ∈ P /\ ev_geo x = mo_timing m /\ ev_slot x + 1 = ev_slot f /\ x ∉ snapshot (mo_hist m).
Proof.
  set (l := ([mo_frame mo_g1 "a" 1000; AFetch mo_g2; AReset; AAnnounce; ASwitch] ++ mo_event mo_g2 "b" 1 ++
    [APush "a"; ASend "a"] ++ mo_event mo_g2 "b" 2)%list).
  exists mo_g1, 64, l, (mo_at mo_0 l), (mo_put mo_0 l),
    (mkEv "a" "block" 1000 4002000 2000 0 mo_g1), (mkEv "b" "block" 2 4010000 2000 0 mo_g2), (mkEv "b" "block" 1 4006000 2000 0 mo_g2).
  split; [apply mo_run; vm_compute; reflexivity|].
  split; [apply mo_quiet; [vm_compute; reflexivity|vm_compute; reflexivity]|].
  assert (snapshot (mo_hist (mo_at mo_0 l)) = [mkEv "a" "block" 1000 4002000 2000 0 mo_g1; mkEv "b" "block" 2 4010000 2000 0 mo_g2]) as Hs
    by (vm_compute; reflexivity).
  split; [exact Hs|]. split; [vm_compute; discriminate|]. split; [vm_compute; reflexivity|].
  split; [apply elem_of_list_In; vm_compute; by left|]. split; [vm_compute; reflexivity|]. split; [reflexivity|].
  rewrite Hs, !elem_of_cons, elem_of_nil. intros [|[|[]]]; discriminate.
Qed.
Print Assumptions C78_mixed_refuted.
