(** The event monitor's connections to the nodes it watches: reconnection with backoff, the
    announced status of each node, the configuration and the resolution of the slot geometry.
    Models tooling/event-monitor/src/{collector,config,timing,hub}.rs.  Simplified: an HTTP
    request either fails (refused, timed out, error status) or is answered; the error is not
    kept; times are in milliseconds; what happens with a frame is in [Monitor]. *)
From Coq Require Import Ascii String.
From Verif Require Export Monitor.
Local Open Scope N_scope.

(** model.rs [NodeState] *)
Inductive NodeState := Connected | Reconnecting | Down.
Global Instance nodestate_eq_dec : EqDecision NodeState.
Proof. solve_decision. Defined.
(** model.rs [NodeStatus].  The rate is kept as a number of events and of milliseconds, not
    as a floating-point quotient. *)
Record NodeStatus := mkStatus { ns_node : string; ns_state : NodeState; ns_rate : N * N }.

(** collector.rs:17-18 *)
Definition INITIAL_BACKOFF : N := 250.
Definition MAX_BACKOFF : N := 10000.

(** Where the task of a node is: not yet run; waiting for the answer to its request;
    streaming ([healthy], the events and the start of the window of [RateTracker],
    collector.rs:137-140); sleeping before the next attempt. *)
Inductive Phase :=
| Spawned
| Dialing
| Streaming (healthy : bool) (count window : N)
| Sleeping (delay : N).
(** The locals of [run_collector] (collector.rs:223-224): the node's name, the delay of
    [Backoff], the last state of [StatusPublisher]. *)
Record Coll := mkColl { co_name : string; co_delay : N; co_last : option NodeState; co_phase : Phase }.
(** collector.rs:105-109, 180-186 *)
Definition new_coll (name : string) : Coll := mkColl name INITIAL_BACKOFF None Spawned.

(** What happens to one collector: it starts; the request fails; it is answered; a frame
    arrives; the heartbeat ticks; the stream ends ([error]: not cleanly); the sleep is over. *)
Inductive CEv :=
| EStart
| ERefused
| EAccepted (now : N)
| EFrame
| EBeat (now : N)
| EEnd (error : bool)
| EWake.
Global Instance cev_eq_dec : EqDecision CEv.
Proof. solve_decision. Defined.

(** collector.rs:190-197 *)
Definition publish (c : Coll) (s : NodeState) (rate : N * N) : Coll * option NodeStatus :=
  (mkColl (co_name c) (co_delay c) (Some s) (co_phase c), Some (mkStatus (co_name c) s rate)).
(** collector.rs:206-210; the rate 0.0 is no events in a millisecond *)
Definition publish_change (c : Coll) (s : NodeState) : Coll * option NodeStatus :=
  if bool_decide (co_last c = Some s) then (c, None) else publish c s (0, 1).
(** collector.rs:155-161 *)
Definition rate_of (count window now : N) : N * N := (count, N.max (now - window) 1).
(** collector.rs:120-124 *)
Definition record (delay : N) (healthy : bool) : N := if healthy then INITIAL_BACKOFF else delay.
(** collector.rs:128-132 *)
Definition advance_delay (delay : N) : N * N := (delay, N.min (delay * 2) MAX_BACKOFF).
(** collector.rs:235-243: the end of an attempt *)
Definition attempt_over (c : Coll) (healthy : bool) : Coll * option NodeStatus :=
  let '(delay, next) := advance_delay (record (co_delay c) healthy) in
  let state := if MAX_BACKOFF <=? delay then Down else Reconnecting in
  let '(c1, out) := publish_change (mkColl (co_name c) next (co_last c) (co_phase c)) state in
  (mkColl (co_name c1) (co_delay c1) (co_last c1) (Sleeping delay), out).
Definition set_phase (c : Coll) (p : Phase) : Coll := mkColl (co_name c) (co_delay c) (co_last c) p.

(** collector.rs:216-313: one step and what it publishes; [None]: the task is not at that point *)
Definition cstep (c : Coll) (e : CEv) : option (Coll * option NodeStatus) :=
  match e, co_phase c with
  | EStart, Spawned => (* 223-225 *)
      Some (publish_change (set_phase c Dialing) Reconnecting)
  | ERefused, Dialing => (* 264-272, 88-93 *)
      Some (attempt_over c false)
  | EAccepted now, Dialing => (* 275-284 *)
      Some (publish (set_phase c (Streaming false 0 now)) Connected (0, 1))
  | EFrame, Streaming h n w => (* 291-297 *)
      Some (set_phase c (Streaming h (n + 1) w), None)
  | EBeat now, Streaming h n w => (* 305-310 *)
      Some (publish (set_phase c (Streaming true 0 now)) Connected (rate_of n w now))
  | EEnd _, Streaming h n w => (* 298-302 *)
      Some (attempt_over c h)
  | EWake, Sleeping _ => (* 244, 228 *)
      Some (set_phase c Dialing, None)
  | _, _ => None
  end.
Fixpoint cexec (c : Coll) (l : list CEv) : option (Coll * list NodeStatus) :=
  match l with
  | [] => Some (c, [])
  | e :: l' =>
      match cstep c e with
      | None => None
      | Some (c1, o) => match cexec c1 l' with
                        | None => None
                        | Some (c2, out) => Some (c2, (option_list o ++ out)%list)
                        end
      end
  end.

(** All collectors (main.rs:50-58) with the status map of the history (hub.rs:64-69, 87-89)
    and the statuses sent on the channel.  [bo_unsent]: recorded but not sent yet (between
    hub.rs:179 and 181). *)
Record Board := mkBoard {
  bo_coll : list Coll; bo_status : gmap string NodeStatus; bo_unsent : gmap nat NodeStatus; bo_sent : list NodeStatus }.
(** The collector at a position of the configuration makes a step; it sends what it recorded. *)
Inductive BEv := BStep (i : nat) (e : CEv) | BSend (i : nat).
Definition new_board (names : list string) : Board := mkBoard (map new_coll names) ∅ ∅ [].
Definition bexec1 (b : Board) (e : BEv) : option Board :=
  match e with
  | BStep i e =>
      match bo_coll b !! i, bo_unsent b !! i with
      | Some c, None =>
          match cstep c e with
          | None => None
          | Some (c', None) => Some (mkBoard (<[i := c']> (bo_coll b)) (bo_status b) (bo_unsent b) (bo_sent b))
          | Some (c', Some s) => (* hub.rs:177-180, 87-89 *)
              Some (mkBoard (<[i := c']> (bo_coll b)) (<[ns_node s := s]> (bo_status b)) (<[i := s]> (bo_unsent b)) (bo_sent b))
          end
      | _, _ => None
      end
  | BSend i => (* hub.rs:181 *)
      match bo_unsent b !! i with
      | Some s => Some (mkBoard (bo_coll b) (bo_status b) (delete i (bo_unsent b)) (bo_sent b ++ [s]))
      | None => None
      end
  end.
Fixpoint bexec (b : Board) (l : list BEv) : option Board :=
  match l with
  | [] => Some b
  | e :: l' => match bexec1 b e with None => None | Some b1 => bexec b1 l' end
  end.

(** ** The configuration and the subscription *)
(** [str::trim_end_matches('/')] on the list of characters *)
Definition trim_end_slashes (s : list ascii) : list ascii :=
  rev ((fix go l := match l with
                    | c :: l' => if ascii_dec c "/" then go l' else l
                    | [] => []
                    end) (rev s)).
(** config.rs:48-50 *)
Definition endpoint (url path : string) : string :=
  string_of_list_ascii (trim_end_slashes (list_ascii_of_string url) ++ list_ascii_of_string path).
(** collector.rs:258-262 *)
Definition events_url (url : string) (topics : list string) : string :=
  (endpoint url "/lean/v0/events" ++ "?topics=" ++ String.concat "," topics)%string.
(** config.rs:106-139; [has_index]: the static directory has an index.html *)
Definition config_valid (topics : list string) (nodes : list (string * string)) (has_index : bool) : bool :=
  match topics, nodes with
  | [], _ => false
  | _, [] => false
  | _, _ => has_index
  end.

(** ** The slot geometry *)
(** timing.rs:24 *)
Definition DEFAULT_INTERVALS_PER_SLOT : N := 5.
(** What a node answers to the two requests (timing.rs:121-132): the genesis time; the slot
    duration and the number of intervals.  [None]: no answer or a malformed one. *)
Definition Answer : Type := option N * option (N * N).
(** timing.rs:154-183: the nodes in the order of the configuration *)
Fixpoint fetch_first (l : list Answer) : option Timing :=
  match l with
  | [] => None
  | (Some g, Some (ms, n)) :: _ => Some (mkTiming g ms n)
  | _ :: l' => fetch_first l'
  end.
(** timing.rs:134-142 *)
Inductive BootstrapError := NoTimingSource | ImplausibleGeometry.
Definition ok_or {A} (o : option A) : res BootstrapError A :=
  match o with Some x => Ok x | None => Err NoTimingSource end.
Definition or_else {A} (o o' : option A) : option A := match o with Some _ => o | None => o' end.
(** timing.rs:201-227; [genesis], [ms]: the overrides of the configuration *)
Definition bootstrap (genesis ms : option N) (l : list Answer) : res BootstrapError Timing :=
  let fetched := fetch_first l in
  let! g := ok_or (or_else genesis (option_map tm_genesis fetched)) in
  let! m := ok_or (or_else ms (option_map tm_ms fetched)) in
  let n := match fetched with Some f => tm_intervals f | None => DEFAULT_INTERVALS_PER_SLOT end in
  if timing_valid (mkTiming g m n) then Ok (mkTiming g m n) else Err ImplausibleGeometry.
(** timing.rs:264-279: one round of the refresher; [Some]: the history is dropped and the
    new geometry announced (the steps [AFetch], [AReset], [AAnnounce], [ASwitch] of [Monitor]) *)
Definition refresh (genesis ms : option N) (current : Timing) (l : list Answer) : option Timing :=
  match bootstrap genesis ms l with
  | Ok fresh => if bool_decide (fresh = current) then None else Some fresh
  | _ => None
  end.
