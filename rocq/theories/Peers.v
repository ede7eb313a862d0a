(** Connections and the redialling of bootnodes.
    Models crates/net/p2p/src/lib.rs:299-313 (the first dials), 477-497
    ([handle_retry_peer_redial]), 559-686 (connection events) and
    crates/net/p2p/src/swarm_adapter.rs:94-154 (the two queues between the actor and the
    swarm).

    The swarm is libp2p's, modelled from its documentation: it counts the connections of
    each peer; a dial ends with a connection or with an error report; a dial command may
    be refused, without a report, only for a peer that is connected or being dialled.
    Left out: requests and gossip, metrics, the end of either task. *)
From Verif Require Export Types.
Local Open Scope N_scope.

Notation PeerId := N (only parsing).

(** lib.rs:62, in milliseconds *)
Definition PEER_REDIAL_INTERVAL : N := 12000.

(** lib.rs:559-686: the events that matter, with the number of connections to the peer
    after it ([num_established]). *)
Inductive ConnEvent :=
| CEstablished (p : PeerId) (established : N)
| CClosed (p : PeerId) (established : N)
| CError (p : option PeerId).

(** The actor (lib.rs:416-434: [connected_peers], [bootnode_addrs]) with its timers, the
    clock, the queue of events (swarm_adapter.rs:101), the queue of dial commands (102),
    and the swarm: connections and dials in progress. *)
Record PeerNet := mkPN {
  pn_now : N;
  pn_boot : gset PeerId;
  pn_connected : gset PeerId;
  pn_timers : list (PeerId * N);
  pn_events : list ConnEvent;
  pn_cmds : list PeerId;
  pn_conns : gmap PeerId N;
  pn_dials : list PeerId }.

(** What is done, with the time: a dial command, a status request, a report that a
    bootnode is gone. *)
Inductive PeerOut :=
| PDial (t : N) (p : PeerId)
| PStatus (t : N) (p : PeerId)
| PGone (t : N) (p : PeerId).

Definition conns_of (n : PeerNet) (p : PeerId) : N := default 0 (pn_conns n !! p).

(** lib.rs:299-313: every bootnode but the node itself is dialled.  The [unwrap] there panics
    if libp2p refuses the dial; it is taken to accept it. *)
Definition peers_start (local : PeerId) (bootnodes : list PeerId) : PeerNet :=
  let l := List.filter (fun p => negb (p =? local)) bootnodes in
  mkPN 0 (list_to_set l) ∅ [] [] [] ∅ l.

(** What can happen. *)
Inductive PeerOp :=
| PoWait (d : N)
| PoIncoming (p : PeerId)
| PoSwarmDial (p : PeerId)
| PoDialOk (p : PeerId)
| PoDialFail (p : PeerId)
| PoOtherError (p : option PeerId)
| PoDrop (p : PeerId)
| PoCommand (start : bool)
| PoHandle
| PoTimer (p : PeerId) (due : N).

Fixpoint take_one {A} `{EqDecision A} (x : A) (l : list A) : option (list A) :=
  match l with
  | [] => None
  | y :: l' => if decide (y = x) then Some l' else cons y <$> take_one x l'
  end.

(** A connection more, reported (swarm). *)
Definition conn_up (n : PeerNet) (p : PeerId) : PeerNet :=
  mkPN (pn_now n) (pn_boot n) (pn_connected n) (pn_timers n)
    (pn_events n ++ [CEstablished p (conns_of n p + 1)]) (pn_cmds n)
    (<[p := conns_of n p + 1]> (pn_conns n)) (pn_dials n).
Definition with_events (n : PeerNet) (l : list ConnEvent) : PeerNet :=
  mkPN (pn_now n) (pn_boot n) (pn_connected n) (pn_timers n) l (pn_cmds n) (pn_conns n) (pn_dials n).
Definition with_dials (n : PeerNet) (l : list PeerId) : PeerNet :=
  mkPN (pn_now n) (pn_boot n) (pn_connected n) (pn_timers n) (pn_events n) (pn_cmds n) (pn_conns n) l.
(** [send_after] of [RetryPeerRedial] *)
Definition redial_later (n : PeerNet) (p : PeerId) : PeerNet :=
  mkPN (pn_now n) (pn_boot n) (pn_connected n) (pn_timers n ++ [(p, pn_now n + PEER_REDIAL_INTERVAL)])
    (pn_events n) (pn_cmds n) (pn_conns n) (pn_dials n).
Definition with_connected (n : PeerNet) (c : gset PeerId) : PeerNet :=
  mkPN (pn_now n) (pn_boot n) c (pn_timers n) (pn_events n) (pn_cmds n) (pn_conns n) (pn_dials n).

(** lib.rs:559-686 *)
Definition handle_conn_event (n : PeerNet) (e : ConnEvent) : PeerNet * list PeerOut :=
  match e with
  | CEstablished p k =>
      if k =? 1 then (with_connected n ({[ p ]} ∪ pn_connected n), [PStatus (pn_now n) p]) else (n, [])
  | CClosed p k =>
      if k =? 0 then
        let n1 := with_connected n (pn_connected n ∖ {[ p ]}) in
        if bool_decide (p ∈ pn_boot n) then (redial_later n1 p, [PGone (pn_now n) p]) else (n1, [])
      else (n, [])
  | CError (Some p) =>
      if bool_decide (p ∈ pn_boot n) && bool_decide (p ∉ pn_connected n)
      then (redial_later n p, [PGone (pn_now n) p]) else (n, [])
  | CError None => (n, [])
  end.
(** lib.rs:477-497 *)
Definition handle_redial (n : PeerNet) (p : PeerId) : PeerNet * list PeerOut :=
  if bool_decide (p ∈ pn_connected n) then (n, [])
  else if bool_decide (p ∈ pn_boot n) then
    (mkPN (pn_now n) (pn_boot n) (pn_connected n) (pn_timers n) (pn_events n) (pn_cmds n ++ [p])
       (pn_conns n) (pn_dials n), [PDial (pn_now n) p])
  else (n, []).

(** One step; [None]: it cannot happen. *)
Definition peers_step (n : PeerNet) (o : PeerOp) : option (PeerNet * list PeerOut) :=
  match o with
  | PoWait d =>
      Some (mkPN (pn_now n + d) (pn_boot n) (pn_connected n) (pn_timers n) (pn_events n) (pn_cmds n)
              (pn_conns n) (pn_dials n), [])
  | PoIncoming p => Some (conn_up n p, [])
  (** a behaviour of the swarm dials by itself, for instance to send a request *)
  | PoSwarmDial p => Some (with_dials n (pn_dials n ++ [p]), [])
  | PoDialOk p =>
      match take_one p (pn_dials n) with
      | Some l => Some (conn_up (with_dials n l) p, [])
      | None => None
      end
  | PoDialFail p =>
      match take_one p (pn_dials n) with
      | Some l => Some (with_events (with_dials n l) (pn_events n ++ [CError (Some p)]), [])
      | None => None
      end
  | PoOtherError p => Some (with_events n (pn_events n ++ [CError p]), [])
  | PoDrop p =>
      if conns_of n p =? 0 then None
      else Some (mkPN (pn_now n) (pn_boot n) (pn_connected n) (pn_timers n)
                   (pn_events n ++ [CClosed p (conns_of n p - 1)]) (pn_cmds n)
                   (<[p := conns_of n p - 1]> (pn_conns n)) (pn_dials n), [])
  (** swarm_adapter.rs:150-154 *)
  | PoCommand start =>
      match pn_cmds n with
      | [] => None
      | p :: l =>
          let n1 := mkPN (pn_now n) (pn_boot n) (pn_connected n) (pn_timers n) (pn_events n) l
                      (pn_conns n) (pn_dials n) in
          if start || ((conns_of n p =? 0) && bool_decide (p ∉ pn_dials n))
          then Some (with_dials n1 (pn_dials n ++ [p]), []) else Some (n1, [])
      end
  | PoHandle =>
      match pn_events n with
      | [] => None
      | e :: l => Some (handle_conn_event (with_events n l) e)
      end
  | PoTimer p due =>
      if pn_now n <? due then None
      else match take_one (p, due) (pn_timers n) with
           | Some l =>
               Some (handle_redial (mkPN (pn_now n) (pn_boot n) (pn_connected n) l (pn_events n)
                                      (pn_cmds n) (pn_conns n) (pn_dials n)) p)
           | None => None
           end
  end.
Fixpoint peers_run (n : PeerNet) (ops : list PeerOp) : option (PeerNet * list PeerOut) :=
  match ops with
  | [] => Some (n, [])
  | o :: ops' =>
      match peers_step n o with
      | Some (n1, out1) =>
          match peers_run n1 ops' with
          | Some (n2, out2) => Some (n2, (out1 ++ out2)%list)
          | None => None
          end
      | None => None
      end
  end.
