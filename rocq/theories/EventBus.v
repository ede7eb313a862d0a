(** The event bus and the HTTP event stream.
    Models crates/blockchain/src/events.rs:146-194 ([EventBus]) and
    crates/net/rpc/src/events.rs:32-108.

    The broadcast channel is tokio's, modelled from its documentation: it keeps the
    last [capacity] values; a receiver reads the values in order from the one sent
    first after it was created; if the next one has been overwritten it is told how
    many it missed and goes on with the oldest kept.  Left out: HTTP itself and the
    decoding of the query, keep-alive frames, the wrap-around of positions at 2^64. *)
From Coq Require Import Ascii String.
From Verif Require Export Actor Gossip.
Local Open Scope N_scope.

(** events.rs:158 *)
Definition CHAIN_EVENT_CHANNEL_CAPACITY : N := 8192.

(** A connection: the position of the next event and the chosen topics
    (rpc events.rs:66-70). *)
Record Rx := mkRx { rx_next : N; rx_topics : list Topic }.
(** The channel.  [bs_kept]: the kept events, oldest first; [bs_tail]: how many were
    sent; [bs_conns]: the connections, numbered in the order they were accepted;
    [bs_closed]: the publisher is gone. *)
Record Bus := mkBus {
  bs_capacity : N; bs_kept : list ChainEvent; bs_tail : N;
  bs_conns : gmap N Rx; bs_count : N; bs_closed : bool }.
(** events.rs:173-177; the channel rounds the capacity up to a power of two and
    panics at zero. *)
Definition new_bus (capacity : N) : res unit Bus :=
  if capacity =? 0 then Panic else Ok (mkBus (2 ^ N.log2_up capacity) [] 0 ∅ 0 false).

(** What happens: a request for the stream (with its [topics] parameter), the actor
    emits an event, the server's task of a connection reads once, a client goes away,
    the publisher ends. *)
Inductive BusOp :=
| OConnect (topics : option string)
| OEmit (e : ChainEvent)
| ORead (conn : N)
| ODisconnect (conn : N)
| OShutdown.
(** What a client sees: 400, the stream opened, a frame with the topic's name and the
    JSON of the event, the comment about dropped events, the end of the stream. *)
Inductive Frame :=
| FEvent (name json : string)
| FDropped (skipped : N).
Inductive Seen :=
| SRefused
| SOpened (conn : N)
| SFrame (conn : N) (f : Frame)
| SEnd (conn : N).

(** rpc events.rs:47-59; [collect] into a [Result] *)
Fixpoint parse_all (l : list string) : option (list Topic) :=
  match l with
  | [] => Some []
  | s :: l' => match topic_of_str s, parse_all l' with
               | Some t, Some ts => Some (t :: ts)
               | _, _ => None
               end
  end.
Definition parse_topics (topics : option string) : option (list Topic) :=
  match topics with
  | None => None
  | Some EmptyString => None
  | Some s => parse_all (split_on "," s)
  end.
(** events.rs:31, the derived [PartialEq] *)
Global Instance topic_eq_dec : EqDecision Topic.
Proof. solve_decision. Defined.

(** The last [c] of the values. *)
Definition keep_last {A} (c : N) (l : list A) : list A := drop (N.to_nat (lenN l - c)) l.
(** [Receiver::recv] of the channel, at once. *)
Inductive Recv := RValue (e : ChainEvent) | RLagged (missed : N) | RClosed | RWait.
Definition recv (b : Bus) (next : N) : N * Recv :=
  let oldest := bs_tail b - lenN (bs_kept b) in
  if next <? oldest then (oldest, RLagged (oldest - next))
  else match getN (bs_kept b) (next - oldest) with
       | Some e => (next + 1, RValue e)
       | None => (next, if bs_closed b then RClosed else RWait)
       end.

Section Bus.
  (** [serde_json] of an event; [None]: it fails *)
  Context (json : ChainEvent -> option string).

  Definition set_conns (b : Bus) (c : gmap N Rx) : Bus :=
    mkBus (bs_capacity b) (bs_kept b) (bs_tail b) c (bs_count b) (bs_closed b).
  (** rpc events.rs:71-106: one turn of the loop *)
  Definition read_once (b : Bus) (conn : N) : Bus * list Seen :=
    match bs_conns b !! conn with
    | None => (b, [])
    | Some rx =>
        let '(next, r) := recv b (rx_next rx) in
        let b' := set_conns b (<[conn := mkRx next (rx_topics rx)]> (bs_conns b)) in
        match r with
        | RValue e =>
            if bool_decide (topic_of e ∉ rx_topics rx) then (b', [])
            else match json e with
                 | Some j => (b', [SFrame conn (FEvent (topic_str (topic_of e)) j)])
                 | None => (b', [])
                 end
        | RLagged n => (b', [SFrame conn (FDropped n)])
        | RClosed => (set_conns b (delete conn (bs_conns b)), [SEnd conn])
        | RWait => (b, [])
        end
    end.
  (** events.rs:183-188.  After the end of the publisher there is nobody to emit or to
      accept connections. *)
  Definition bus_step (b : Bus) (o : BusOp) : Bus * list Seen :=
    match o with
    | OConnect q =>
        if bs_closed b then (b, [])
        else match parse_topics q with
             | None => (b, [SRefused])
             | Some ts =>
                 (mkBus (bs_capacity b) (bs_kept b) (bs_tail b)
                    (<[bs_count b := mkRx (bs_tail b) ts]> (bs_conns b)) (bs_count b + 1) false,
                  [SOpened (bs_count b)])
             end
    | OEmit e =>
        if bs_closed b || bool_decide (bs_conns b = ∅) then (b, [])
        else (mkBus (bs_capacity b) (keep_last (bs_capacity b) (bs_kept b ++ [e])) (bs_tail b + 1)
                (bs_conns b) (bs_count b) false, [])
    | ORead c => read_once b c
    | ODisconnect c => (set_conns b (delete c (bs_conns b)), [])
    | OShutdown => (mkBus (bs_capacity b) (bs_kept b) (bs_tail b) (bs_conns b) (bs_count b) true, [])
    end.
  (** A sequence of them, with what is seen. *)
  Fixpoint bus_run (b : Bus) (ops : list BusOp) : Bus * list Seen :=
    match ops with
    | [] => (b, [])
    | o :: ops' => let '(b1, s1) := bus_step b o in
                   let '(b2, s2) := bus_run b1 ops' in (b2, (s1 ++ s2)%list)
    end.
End Bus.
