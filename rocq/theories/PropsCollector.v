(** The connections of the event monitor: reconnection, status, configuration, geometry. *)
From Coq Require Import Ascii String.
From Verif Require Import BusThms CollectorSpec CollectorProofs CollectorMore.
Local Open Scope N_scope.

(** ** C86 reconnection and the announced status *)

(** After every attempt the collector sleeps 250 ms if the attempt went well or was the
    first, and twice as long for each attempt since, but at most ten seconds. *)
Theorem C86_delay n l e c out :
  cexec (new_coll n) (l ++ [e]) = Some (c, out) -> e = ERefused \/ (exists x, e = EEnd x) ->
  exists k, since (attempts (l ++ [e])) k /\ co_phase c = Sleeping (N.min 10000 (250 * 2 ^ N.of_nat k)).
Proof. exact (delay_pf n l e c out). Qed.
Print Assumptions C86_delay.

(** The last status published is [Connected] exactly while a stream is open.  Between
    streams it is [Down] from the sixth attempt after the last one that went well (the
    seventh, if none did) and [Reconnecting] before. *)
Theorem C86_shown n l c out :
  cexec (new_coll n) l = Some (c, out) ->
  match co_phase c with
  | Spawned => out = []
  | Streaming _ _ _ => ns_state <$> last out = Some Connected
  | Dialing | Sleeping _ =>
      (attempts l = [] /\ ns_state <$> last out = Some Reconnecting) \/
      exists k, since (attempts l) k /\ ns_state <$> last out = Some (if 6 <=? N.of_nat k then Down else Reconnecting)
  end.
Proof. exact (shown_pf n l c out). Qed.
Print Assumptions C86_shown.

(** A state is never announced twice in a row, except [Connected], with a new rate. *)
Theorem C86_changes n l c out x a b y :
  cexec (new_coll n) l = Some (c, out) -> out = (x ++ a :: b :: y)%list -> ns_state a = ns_state b -> ns_state a = Connected.
Proof. intros H. exact (calm_pf n l c out H x a b y). Qed.
Print Assumptions C86_changes.

(** A node that never accepts a connection is announced as reconnecting once, and as down
    once after the seventh attempt, however long this goes on. *)
Theorem C86_unreached n l c out :
  cexec (new_coll n) l = Some (c, out) -> (forall t, EAccepted t ∉ l) -> l <> [] ->
  map ns_state out = (if (7 <=? refusals l)%nat then [Reconnecting; Down] else [Reconnecting])%list.
Proof. exact (unreached_pf n l c out). Qed.
Print Assumptions C86_unreached.

(** At a heartbeat the status carries the number of frames received since the heartbeat
    before (or the opening of the stream) and the time since. *)
Theorem C86_rate n l e t1 t2 k c out :
  e = EAccepted t1 \/ e = EBeat t1 -> cexec (new_coll n) (l ++ [e] ++ replicate k EFrame ++ [EBeat t2]) = Some (c, out) ->
  last out = Some (mkStatus n Connected (N.of_nat k, N.max (t2 - t1) 1)).
Proof. exact (rate_pf n l e t1 t2 k c out). Qed.
Print Assumptions C86_rate.

(** With different names for the nodes, and whatever the order in which the collectors
    run: each node's collector behaves as if it were alone, the history holds for each name
    the last status its collector published, and the stream carries all of them in order. *)
Theorem C86_board_partial names l b i n :
  NoDup names -> bexec (new_board names) l = Some b -> names !! i = Some n ->
  exists c out,
    cexec (new_coll n) (steps_of i l) = Some (c, out) /\ bo_coll b !! i = Some c /\ bo_status b !! n = last out /\
    (filter (fun s => ns_node s = n) (bo_sent b) ++ option_list (bo_unsent b !! i))%list = out.
Proof. intros Hd H. exact (proj2 (proj2 (proj2 (board_pf names l b Hd H))) i n). Qed.
Print Assumptions C86_board_partial.

(** *** Examples and refutations *)
Definition co_states (r : option (Coll * list NodeStatus)) : list NodeState :=
  match r with Some (_, out) => map ns_state out | None => [] end.
(** Two refusals, a session with a heartbeat and three frames, and an error. *)
Definition co_l : list CEv :=
  [EStart; ERefused; EWake; ERefused; EWake; EAccepted 1000; EFrame; EFrame; EBeat 6000; EFrame; EEnd true]%list.
Example C86_nonvacuous :
  cexec (new_coll "a") co_l =
    Some (mkColl "a" 500 (Some Reconnecting) (Sleeping 250),
      [mkStatus "a" Reconnecting (0, 1); mkStatus "a" Connected (0, 1); mkStatus "a" Connected (2, 5000);
       mkStatus "a" Reconnecting (0, 1)])%list /\
  attempts co_l = [false; false; true]%list /\ since (attempts co_l) 0.
Proof. split; [reflexivity|]. split; [reflexivity|]. left. by exists [false; false]%list. Qed.
(** The eighth failure in a row. *)
Definition co_down : list CEv := (EStart :: concat (replicate 7 [ERefused; EWake]) ++ [ERefused])%list.
Example C86_down_nonvacuous :
  cexec (new_coll "a") co_down =
    Some (mkColl "a" 10000 (Some Down) (Sleeping 10000), [mkStatus "a" Reconnecting (0, 1); mkStatus "a" Down (0, 1)])%list /\
  refusals co_down = 8%nat /\ (forall t, EAccepted t ∉ co_down) /\ since (attempts co_down) 7.
Proof.
  split; [reflexivity|]. split; [reflexivity|]. split; [|by right]. intros t Ht. apply elem_of_list_In in Ht. vm_compute in Ht. by intuition discriminate.
Qed.
(** Two nodes, interleaved; the status of the second is recorded but not sent yet. *)
Definition co_two : list BEv :=
  [BStep 0 EStart; BStep 1 EStart; BSend 1; BSend 0; BStep 1 ERefused; BStep 0 (EAccepted 5); BSend 0; BStep 1 EWake; BStep 1 (EAccepted 7)]%list.
Example C86_board_nonvacuous : exists b, bexec (new_board ["a"; "b"]) co_two = Some b /\
  ns_state <$> bo_status b !! "a" = Some Connected /\ ns_state <$> bo_status b !! "b" = Some Connected /\
  map (fun s => (ns_node s, ns_state s)) (bo_sent b) = [("b", Reconnecting); ("a", Reconnecting); ("a", Connected)]%list /\
  ns_state <$> bo_unsent b !! 1%nat = Some Connected.
Proof. eexists. split; [vm_compute; reflexivity|]. vm_compute. done. Qed.

(** Missing: two nodes of the configuration may have the same name (the validation of the
    configuration does not look).  Then the history shows one status for both: here the
    first is down, and what is shown is the second's. *)
Theorem C86_names_refuted : exists names nodes l b c out,
  map fst nodes = names /\ config_valid ["block"] nodes true = true /\
  bexec (new_board names) l = Some b /\ names !! 0%nat = Some "a" /\
  cexec (new_coll "a") (steps_of 0 l) = Some (c, out) /\ bo_unsent b !! 0%nat = None /\ bo_unsent b !! 1%nat = None /\
  ns_state <$> last out = Some Down /\ ns_state <$> bo_status b !! "a" = Some Connected.
Proof.
  exists ["a"; "a"]%list, [("a", "http://x"); ("a", "http://y")]%list,
    ([BStep 0 EStart; BSend 0] ++ concat (replicate 6 [BStep 0 ERefused; BStep 0 EWake]) ++
     [BStep 0 ERefused; BSend 0; BStep 1 EStart; BSend 1; BStep 1 (EAccepted 0); BSend 1])%list.
  eexists _, _, _. split; [reflexivity|]. split; [reflexivity|]. split; [vm_compute; reflexivity|].
  split; [reflexivity|]. split; [vm_compute; reflexivity|]. vm_compute. done.
Qed.
Print Assumptions C86_names_refuted.

(** ... and a node that accepts every connection and closes it at once, without ever
    delivering anything, does not stay down: it is announced as connected and down in turn,
    as often as it is tried. *)
Definition co_drop : list CEv := [EAccepted 0; EEnd false; EWake]%list.
Theorem C86_still_refuted : exists c0 out0, cexec (new_coll "a") (EStart :: concat (replicate 7 co_drop)) = Some (c0, out0) /\
  ns_state <$> last out0 = Some Down /\
  forall k, exists c out, cexec (new_coll "a") (EStart :: concat (replicate 7 co_drop) ++ concat (replicate k co_drop)) = Some (c, (out0 ++ out)%list) /\
    map ns_state out = concat (replicate k [Connected; Down]).
Proof.
  eexists _, _. split; [vm_compute; reflexivity|]. split; [reflexivity|]. intros k.
  assert (forall c, co_name c = "a" -> co_delay c = 10000 -> co_last c = Some Down -> co_phase c = Dialing ->
    exists out, cexec c (concat (replicate k co_drop)) = Some (c, out) /\ map ns_state out = concat (replicate k [Connected; Down])) as G.
  { intros [n d s p]. cbn [co_name co_delay co_last co_phase]. intros -> -> -> ->. induction k as [|k (out & IH & Ho)]; [by exists []|].
    exists (mkStatus "a" Connected (0, 1) :: mkStatus "a" Down (0, 1) :: out)%list. split.
    - change (concat (replicate (S k) co_drop)) with (co_drop ++ concat (replicate k co_drop))%list. rewrite cexec_app.
      change (cexec (mkColl "a" 10000 (Some Down) Dialing) co_drop) with
        (Some (mkColl "a" 10000 (Some Down) Dialing, [mkStatus "a" Connected (0, 1); mkStatus "a" Down (0, 1)])%list).
      cbv beta iota. by rewrite IH.
    - cbn. by rewrite Ho. }
  destruct (G (mkColl "a" 10000 (Some Down) Dialing) eq_refl eq_refl eq_refl eq_refl) as (out & Hx & Ho).
  exists (mkColl "a" 10000 (Some Down) Dialing), out. split; [|done].
  change (EStart :: concat (replicate 7 co_drop) ++ concat (replicate k co_drop))%list with
    ((EStart :: concat (replicate 7 co_drop)) ++ concat (replicate k co_drop))%list.
  rewrite cexec_app.
  match goal with |- match ?x with _ => _ end = _ => let y := eval vm_compute in x in change x with y end.
  cbv beta iota. by rewrite Hx.
Qed.
Print Assumptions C86_still_refuted.

(** ** C87 the subscription and the slot geometry *)

(** Slashes at the end of a node's configured URL make no difference: with any number of
    them, for every list of topics the collector asks for the events of exactly those
    topics, at the same address, and the node takes the request so. *)
Theorem C87_subscription u k ts :
  (forall v, u <> (v ++ "/")%string) -> ts <> [] ->
  events_url (u ++ string_of_list_ascii (replicate k "/"%char)) (map topic_str ts) =
    (u ++ "/lean/v0/events" ++ "?topics=" ++ String.concat "," (map topic_str ts))%string /\
  parse_topics (Some (String.concat "," (map topic_str ts))) = Some ts.
Proof. exact (subscription_pf u k ts). Qed.
Print Assumptions C87_subscription.

(** The geometry is resolved to the values of the configuration and, for what it leaves
    out, to the answer of the first node that answers both requests; the number of intervals
    is that node's, or five.  Only plausible values are taken. *)
Theorem C87_resolved genesis ms l t :
  bootstrap genesis ms l = Ok t <-> plausible t /\
  ((exists f, first_answer l f /\ t = mkTiming (default (tm_genesis f) genesis) (default (tm_ms f) ms) (tm_intervals f)) \/
   (Forall silent l /\ genesis = Some (tm_genesis t) /\ ms = Some (tm_ms t) /\ tm_intervals t = 5)).
Proof. exact (resolved_pf genesis ms l t). Qed.
Print Assumptions C87_resolved.

(** It is missing exactly if the configuration leaves something out and no node answers. *)
Theorem C87_no_source genesis ms l :
  bootstrap genesis ms l = Err NoTimingSource <-> Forall silent l /\ (genesis = None \/ ms = None).
Proof. exact (no_source_pf genesis ms l). Qed.
Print Assumptions C87_no_source.

(** The refresher announces a geometry exactly if it is what is resolved now, and new. *)
Theorem C87_refresh genesis ms current l t :
  refresh genesis ms current l = Some t <-> bootstrap genesis ms l = Ok t /\ t <> current.
Proof. exact (refresh_pf genesis ms current l t). Qed.
Print Assumptions C87_refresh.

(** If all nodes have the same geometry, then whichever of them answer, at the start and at
    a refresh, the geometry stays and the history is not dropped; except when the
    configuration gives genesis time and slot duration and the nodes do not have five
    intervals. *)
Theorem C87_kept_partial genesis ms l0 l1 f current :
  bootstrap genesis ms l0 = Ok current ->
  (forall a, a ∈ (l0 ++ l1)%list -> silent a \/ a = (Some (tm_genesis f), Some (tm_ms f, tm_intervals f))) ->
  genesis = None \/ ms = None \/ tm_intervals f = 5 ->
  refresh genesis ms current l1 = None.
Proof. exact (kept_pf genesis ms l0 l1 f current). Qed.
Print Assumptions C87_kept_partial.

(** *** Examples and refutations *)
Definition co_f : Timing := mkTiming 1770407233 4000 4.
Definition co_ans : Answer := (Some 1770407233, Some (4000, 4)).
Example C87_nonvacuous :
  bootstrap None (Some 8000) [(None, Some (1, 1)); co_ans] = Ok (mkTiming 1770407233 8000 4) /\
  refresh None (Some 8000) (mkTiming 1770407233 8000 4) [(None, None); (None, None)] = None /\
  bootstrap None (Some 8000) [(None, Some (1, 1))] = Err NoTimingSource /\
  bootstrap (Some 1) (Some 8000) [(None, Some (1, 1))] = Ok (mkTiming 1 8000 5) /\
  bootstrap (Some 1) (Some 0) [co_ans] = Err ImplausibleGeometry /\
  refresh None None co_f [(Some 1770407234, Some (4000, 4))] = Some (mkTiming 1770407234 4000 4).
Proof. vm_compute. done. Qed.
Example C87_url_nonvacuous :
  events_url "http://127.0.0.1:5052//" ["block"; "attestation"] = "http://127.0.0.1:5052/lean/v0/events?topics=block,attestation".
Proof. reflexivity. Qed.

(** Missing: with both values configured and a node of four intervals, the node going away
    counts as a change of geometry, and its return as another. *)
Theorem C87_outage_refuted : exists genesis ms current,
  bootstrap (Some genesis) (Some ms) [co_ans] = Ok current /\
  exists fresh, refresh (Some genesis) (Some ms) current [(None, None)] = Some fresh /\
  refresh (Some genesis) (Some ms) fresh [co_ans] = Some current.
Proof. exists 1770407233, 4000, co_f. split; [reflexivity|]. by exists (mkTiming 1770407233 4000 5). Qed.
Print Assumptions C87_outage_refuted.
(** ... and with two nodes of different geometry, none of which changes, an outage of the
    first drops the history and takes over the other's. *)
Theorem C87_disagree_refuted : exists a1 a2 current fresh,
  bootstrap None None [a1; a2] = Ok current /\ refresh None None current [(None, None); a2] = Some fresh.
Proof. exists co_ans, (Some 5, Some (4000, 5)), co_f, (mkTiming 5 4000 5). done. Qed.
Print Assumptions C87_disagree_refuted.
(** ... and a configuration that passes the validation may ask for a topic that every node
    refuses, at every attempt. *)
Theorem C87_config_refuted : exists topics nodes,
  config_valid topics nodes true = true /\ parse_topics (Some (String.concat "," topics)) = None.
Proof. by exists [""]%list, [("a", "http://x")]%list. Qed.
Print Assumptions C87_config_refuted.

(** A configuration is accepted exactly when there is a topic to ask for, a node to ask and a
    page to show; so the geometry is always asked of at least one node. *)
Theorem C87_config topics nodes page :
  config_valid topics nodes page = true <-> topics <> [] /\ nodes <> [] /\ page = true.
Proof. destruct topics, nodes; cbn; intuition congruence. Qed.
Print Assumptions C87_config.
