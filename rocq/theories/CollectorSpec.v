(** Specification of the connections of the event monitor. *)
From Coq Require Import Ascii String.
From Verif Require Export Collector.
Local Open Scope N_scope.

(** How the attempts over so far went, oldest first: [true] if the stream was open at a
    heartbeat.  [h]: whether there was a heartbeat in the one at the beginning of [l]. *)
Fixpoint went (h : bool) (l : list CEv) : list bool :=
  match l with
  | [] => []
  | ERefused :: l' => false :: went false l'
  | EAccepted _ :: l' => went false l'
  | EBeat _ :: l' => went true l'
  | EEnd _ :: l' => h :: went false l'
  | _ :: l' => went h l'
  end.
Definition attempts (l : list CEv) : list bool := went false l.
(** There were [k] attempts after the last one that went well; if none did, there were [k]
    after the first. *)
Definition since (l : list bool) (k : nat) : Prop :=
  (exists l', l = l' ++ true :: replicate k false)%list \/ l = replicate (S k) false.

(** How many requests failed. *)
Definition refusals (l : list CEv) : nat := length (filter (fun e => e = ERefused) l).

(** The steps of the collector at a position. *)
Definition steps_of (i : nat) (l : list BEv) : list CEv :=
  omap (fun e => match e with BStep j e => if decide (j = i) then Some e else None | BSend _ => None end) l.

(** A node that did not answer both requests. *)
Definition silent (a : Answer) : Prop := a.1 = None \/ a.2 = None.
(** The answer of the first node that answered both. *)
Definition first_answer (l : list Answer) (f : Timing) : Prop :=
  exists l1 l2, l = (l1 ++ (Some (tm_genesis f), Some (tm_ms f, tm_intervals f)) :: l2)%list /\ Forall silent l1.
Definition plausible (t : Timing) : Prop :=
  1 <= tm_ms t <= 3600000 /\ 1 <= tm_intervals t /\ tm_genesis t <= 4102444800.
