(** Runs of the event monitor, and what a browser tab should get to see. *)
From Coq Require Import String.
From Verif Require Export Monitor.
Local Open Scope N_scope.

(** The event an action puts into the history. *)
Definition pushed_by (m : Mon) (a : Action) : list Ev :=
  match a with
  | APush c => match mo_coll m !! c with Some (CStamped e) => [e] | _ => [] end
  | _ => []
  end.
(** [mrun m l m' P]: the actions [l] lead from [m] to [m']; [P] are the events put into the
    history on the way, in order. *)
Inductive mrun (m : Mon) : list Action -> Mon -> list Ev -> Prop :=
| mr_nil : mrun m [] m []
| mr_step l m1 P a m2 : mrun m l m1 P -> mexec m1 a = Some m2 -> mrun m (l ++ [a]) m2 (P ++ pushed_by m1 a).

(** The event occurs in [P], and: an event of [P] is [retain] slots or more ahead of it, or
    50000 events came after it, or 2000 of its node and topic did. *)
Definition outdated (retain : N) (P : list Ev) (e : Ev) : Prop :=
  exists i, P !! i = Some e /\
    ((exists f, f ∈ P /\ ev_slot e + retain <= ev_slot f) \/
     HISTORY_MAX_EVENTS <= lenN (drop (S i) P) \/
     SNAPSHOT_MAX_EVENTS_PER_SERIES <=
       lenN (filter (fun f => ev_node f = ev_node e /\ ev_topic f = ev_topic e) (drop (S i) P))).

(** In the history but not sent yet; stamped but not sent yet. *)
Definition in_flight (m : Mon) (e : Ev) : Prop := exists c, mo_coll m !! c = Some (CPushed e).
Definition busy (m : Mon) (e : Ev) : Prop :=
  exists c, mo_coll m !! c = Some (CStamped e) \/ mo_coll m !! c = Some (CPushed e).
(** Nothing is going on: no event between its arrival and its sending, no refresh under way. *)
Definition quiet (m : Mon) : Prop := mo_ref m = RIdle /\ forall e, ~ busy m e.
