(** The event monitor: a separate process that subscribes to the event streams of several
    nodes, stamps each event with its offset in the slot and serves a merged stream and a
    history to browser tabs.  Models tooling/event-monitor/src/{timing,model,hub,collector,
    server}.rs.  Simplified: the node status messages, the HTTP client and the JSON parsing
    are left out; a frame comes parsed. *)
From Coq Require Import Ascii String.
From Verif Require Export Lib.
Local Open Scope N_scope.

(** timing.rs:54-59 *)
Record Timing := mkTiming { tm_genesis : N; tm_ms : N; tm_intervals : N }.
Global Instance timing_eq_dec : EqDecision Timing.
Proof. solve_decision. Defined.
(** timing.rs:36,46 *)
Definition MAX_MS_PER_SLOT : N := 3600000.
Definition MAX_GENESIS_TIME : N := 4102444800.
(** timing.rs:71-89 *)
Definition timing_valid (t : Timing) : bool :=
  negb ((tm_ms t =? 0) || (MAX_MS_PER_SLOT <? tm_ms t)) && negb (tm_intervals t =? 0) &&
  negb (MAX_GENESIS_TIME <? tm_genesis t).

(** i64 arithmetic of a debug build: overflow panics (a release build wraps). *)
Definition i64 (z : Z) : res unit Z :=
  if ((- 2 ^ 63 <=? z) && (z <? 2 ^ 63))%Z then Ok z else Panic.
(** [as i64] *)
Definition as_i64 (n : N) : Z := if n <? 2 ^ 63 then Z.of_N n else (Z.of_N n - 2 ^ 64)%Z.
(** timing.rs:97-100 *)
Definition offset_ms (t : Timing) (slot : N) (arrival : Z) : res unit Z :=
  let! g := i64 (as_i64 (tm_genesis t) * 1000) in
  let! s := i64 (as_i64 slot * as_i64 (tm_ms t)) in
  let! start := i64 (g + s) in
  i64 (arrival - start).
(** i64 [saturating_sub] *)
Definition sat_sub (a b : Z) : Z := Z.max (- 2 ^ 63) (Z.min (2 ^ 63 - 1) (a - b)).
(** timing.rs:105-114 *)
Definition slot_at (t : Timing) (now : Z) : res unit N :=
  let! g := i64 (as_i64 (tm_genesis t) * 1000) in
  let elapsed := sat_sub now g in
  if (elapsed <=? 0)%Z then Ok 0 else Ok (Z.to_N elapsed / N.max (tm_ms t) 1).

(** model.rs:52-61.  [ev_body]: the id, the validator and the number of participants.
    [ev_geo] is not in the code: the geometry the event was stamped with. *)
Record Ev := mkEv {
  ev_node : string; ev_topic : string; ev_slot : N; ev_arrival : Z; ev_offset : Z; ev_body : N;
  ev_geo : Timing }.
(** A frame of a node's event stream: topic, slot and the rest; [None]: unknown topic or
    malformed payload. *)
Definition Frame : Type := option (string * N * N).
(** model.rs:77 *)
Definition MAX_FUTURE_SLOTS : N := 8.
(** model.rs:136-189 and collector.rs [handle_frame]; [None]: the frame is dropped *)
Definition normalize (node : string) (f : Frame) (arrival : Z) (t : Timing) : res unit (option Ev) :=
  match f with
  | None => Ok None
  | Some (topic, slot, body) =>
      let! s := slot_at t arrival in
      if N.min (s + MAX_FUTURE_SLOTS) (two64 - 1) <? slot then Ok None
      else let! o := offset_ms t slot arrival in
           Ok (Some (mkEv node topic slot arrival o body t))
  end.

(** hub.rs:66-72, without the status map *)
Record History := mkHistory { hi_events : list Ev; hi_max : N; hi_retain : N }.
(** hub.rs:23,34 *)
Definition HISTORY_MAX_EVENTS : N := 50000.
Definition SNAPSHOT_MAX_EVENTS_PER_SERIES : N := 2000.
(** hub.rs:107-113 *)
Fixpoint drop_old (max_slot retain : N) (l : list Ev) : list Ev :=
  match l with
  | [] => []
  | e :: l' => if retain <=? max_slot - ev_slot e then drop_old max_slot retain l' else l
  end.
(** hub.rs:103-117 *)
Definition prune (h : History) : History :=
  let l := drop_old (hi_max h) (hi_retain h) (hi_events h) in
  mkHistory (drop (N.to_nat (lenN l - HISTORY_MAX_EVENTS)) l) (hi_max h) (hi_retain h).
(** hub.rs:84-88 *)
Definition push_event (h : History) (e : Ev) : History :=
  prune (mkHistory (hi_events h ++ [e]) (N.max (hi_max h) (ev_slot e)) (hi_retain h)).
(** hub.rs:96-99 *)
Definition reset (h : History) : History := mkHistory [] 0 (hi_retain h).
(** hub.rs:75-82, 154-160 *)
Definition new_history (history_slots : N) : History := mkHistory [] 0 (N.max history_slots 1).
(** hub.rs:126-139: the walk from the newest event on *)
Fixpoint newest (kept : gmap (string * string) N) (l : list Ev) : list Ev :=
  match l with
  | [] => []
  | e :: l' =>
      let count := default 0 (kept !! (ev_node e, ev_topic e)) in
      if SNAPSHOT_MAX_EVENTS_PER_SERIES <=? count then newest kept l'
      else e :: newest (<[(ev_node e, ev_topic e) := count + 1]> kept) l'
  end.
(** hub.rs:125-145 *)
Definition snapshot (h : History) : list Ev := rev (newest ∅ (rev (hi_events h))).

(** hub.rs:44-49 *)
Inductive HubMessage := MChain (e : Ev) | MGeometry (t : Timing).

(** Where a collector is: waiting for a frame; the event is stamped (collector.rs:291-293);
    it is in the history but not sent yet (between hub.rs:169 and 171). *)
Inductive CPhase := CIdle | CStamped (e : Ev) | CPushed (e : Ev).
(** Where the refresher is (timing.rs:264-296): waiting; a different geometry was fetched;
    the history is reset; the change is announced. *)
Inductive RPhase := RIdle | RFetched (t : Timing) | RReset (t : Timing) | RAnnounced (t : Timing).

(** [mo_sent]: everything sent on the channel so far.  A subscription receives what is sent
    after it was made; a subscriber that falls behind 4096 messages skips some. *)
Record Mon := mkMon {
  mo_timing : Timing; mo_hist : History; mo_sent : list HubMessage;
  mo_coll : gmap string CPhase; mo_ref : RPhase }.

Inductive Action :=
| AFrame (node : string) (f : Frame) (now : Z)
| APush (node : string)
| ASend (node : string)
| AFetch (t : Timing)
| AReset
| AAnnounce
| ASwitch.

(** One step of one of the tasks; [None]: the task is not at that point.  Each collector is
    one task; the history is behind a lock; the steps of different tasks interleave. *)
Definition mexec (m : Mon) (a : Action) : option Mon :=
  match a with
  | AFrame c f now =>
      match default CIdle (mo_coll m !! c), normalize c f now (mo_timing m) with
      | CIdle, Ok (Some e) => Some (mkMon (mo_timing m) (mo_hist m) (mo_sent m) (<[c := CStamped e]> (mo_coll m)) (mo_ref m))
      | CIdle, Ok None => Some m
      | _, _ => None
      end
  | APush c => (* hub.rs:167-170 *)
      match mo_coll m !! c with
      | Some (CStamped e) => Some (mkMon (mo_timing m) (push_event (mo_hist m) e) (mo_sent m) (<[c := CPushed e]> (mo_coll m)) (mo_ref m))
      | _ => None
      end
  | ASend c => (* hub.rs:171 *)
      match mo_coll m !! c with
      | Some (CPushed e) => Some (mkMon (mo_timing m) (mo_hist m) (mo_sent m ++ [MChain e]) (<[c := CIdle]> (mo_coll m)) (mo_ref m))
      | _ => None
      end
  | AFetch t => (* timing.rs:267-279 *)
      match mo_ref m with
      | RIdle => if timing_valid t && negb (bool_decide (t = mo_timing m))
                 then Some (mkMon (mo_timing m) (mo_hist m) (mo_sent m) (mo_coll m) (RFetched t)) else None
      | _ => None
      end
  | AReset => (* timing.rs:288 *)
      match mo_ref m with
      | RFetched t => Some (mkMon (mo_timing m) (reset (mo_hist m)) (mo_sent m) (mo_coll m) (RReset t))
      | _ => None
      end
  | AAnnounce => (* timing.rs:291 *)
      match mo_ref m with
      | RReset t => Some (mkMon (mo_timing m) (mo_hist m) (mo_sent m ++ [MGeometry t]) (mo_coll m) (RAnnounced t))
      | _ => None
      end
  | ASwitch => (* timing.rs:293 *)
      match mo_ref m with
      | RAnnounced t => Some (mkMon t (mo_hist m) (mo_sent m) (mo_coll m) RIdle)
      | _ => None
      end
  end.
(** main.rs:40-69 *)
Definition mon_start (t : Timing) (history_slots : N) : Mon := mkMon t (new_history history_slots) [] ∅ RIdle.

(** What a tab that subscribed at [m0] has received when the monitor is at [m]. *)
Definition live (m0 m : Mon) : list HubMessage := drop (length (mo_sent m0)) (mo_sent m).
