(** What a client of the event stream is promised. *)
From Coq Require Import String.
From Verif Require Export EventBus.
Local Open Scope N_scope.

(** The frames of one connection. *)
Fixpoint frames_of (conn : N) (l : list Seen) : list Frame :=
  match l with
  | [] => []
  | SFrame c f :: l' => if decide (c = conn) then f :: frames_of conn l' else frames_of conn l'
  | _ :: l' => frames_of conn l'
  end.
(** The events emitted, up to the end of the publisher. *)
Fixpoint emitted (ops : list BusOp) : list ChainEvent :=
  match ops with
  | [] => []
  | OEmit e :: ops' => e :: emitted ops'
  | OShutdown :: _ => []
  | _ :: ops' => emitted ops'
  end.
(** The client does not go away. *)
Definition stays (conn : N) (ops : list BusOp) : Prop := ODisconnect conn ∉ ops.
(** Names separated by commas. *)
Fixpoint comma_list (l : list string) : string :=
  match l with
  | [] => EmptyString
  | [s] => s
  | s :: l' => (s +:+ "," +:+ comma_list l')%string
  end.

Section Shows.
  Context (json : ChainEvent -> option string).
  (** [shows T events frames]: the frames are, in order, the events with a topic in
      [T], and for stretches of events left out their exact number. *)
  Inductive shows (T : list Topic) : list ChainEvent -> list Frame -> Prop :=
  | sh_nil : shows T [] []
  | sh_other e l fs : topic_of e ∉ T -> shows T l fs -> shows T (e :: l) fs
  | sh_bad e l fs : json e = None -> shows T l fs -> shows T (e :: l) fs
  | sh_event e j l fs : topic_of e ∈ T -> json e = Some j -> shows T l fs ->
      shows T (e :: l) (FEvent (topic_str (topic_of e)) j :: fs)
  | sh_dropped gap l fs : gap <> [] -> shows T l fs ->
      shows T (gap ++ l) (FDropped (lenN gap) :: fs).
  (** ... with nothing left out. *)
  Definition shown (T : list Topic) (l : list ChainEvent) : list Frame :=
    omap (fun e => if decide (topic_of e ∈ T) then FEvent (topic_str (topic_of e)) <$> json e else None) l.

  (** A bus after any history, and a connection to it opened for the topics [T]. *)
  Definition bus_reachable (capacity : N) (b : Bus) : Prop :=
    exists b0 pre, new_bus capacity = Ok b0 /\ (bus_run json b0 pre).1 = b.
  Definition opened (b : Bus) (T : list Topic) (conn : N) (b' : Bus) : Prop :=
    bus_step json b (OConnect (Some (comma_list (map topic_str T)))) = (b', [SOpened conn]).
End Shows.
(** How often the server's task of the connection reads. *)
Fixpoint reads (conn : N) (ops : list BusOp) : N :=
  match ops with
  | [] => 0
  | ORead c :: ops' => (if decide (c = conn) then 1 else 0) + reads conn ops'
  | _ :: ops' => reads conn ops'
  end.
(** The history without what the tasks and clients of other connections do. *)
Definition without_others (conn : N) (ops : list BusOp) : list BusOp :=
  List.filter (fun o => match o with ORead c => c =? conn | ODisconnect c => c =? conn | _ => true end) ops.
