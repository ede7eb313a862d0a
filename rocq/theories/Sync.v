(** Model of the block fetching of crates/net/p2p/src/lib.rs and
    crates/net/p2p/src/req_resp/handlers.rs: requests for single blocks with retries
    and range sync.  Left out: logging and metrics, the redialling of bootnodes, the
    answers given to other peers.  The head slot read from the store is part of the
    event that reads it.  The root of a block is [root_of]. *)
From Verif Require Export Storage.

(** A peer and the number libp2p gives to an outgoing request. *)
Notation Peer := N (only parsing).
Notation ReqId := N (only parsing).

(** lib.rs:59-63, messages.rs:8 *)
Definition MAX_FETCH_RETRIES : N := 10.
Definition INITIAL_BACKOFF_MS : N := 5.
Definition BACKOFF_MULTIPLIER : N := 2.
Definition MAX_REQUEST_BLOCKS : N := 1024.
Definition MAX_SYNC_RANGE : N := MAX_REQUEST_BLOCKS * 64.

(** [u64::saturating_add] *)
Definition sat_add (a b : N) : N := N.min (a + b) (two64 - 1).

(** lib.rs:65-68 *)
Record Pending := mkPending { pd_attempts : N; pd_failed : gset Peer }.
(** lib.rs:70-73 *)
Inductive Kind := KRoot (root : H256) | KRange (start_slot end_slot : N).
Global Instance Kind_eqdec : EqDecision Kind.
Proof. solve_decision. Defined.
(** lib.rs:75-81.  [current_range] is [rs_start..rs_end]. *)
Record RangeSync := mkRS {
  rs_start : N;
  rs_end : N;
  rs_peers : gmap Peer N;
  rs_flight : bool }.

(** lib.rs:416-434, the fields used for fetching.  [sv_chain] tells whether the
    reference to the chain actor was set. *)
Record Server := mkSrv {
  sv_chain : bool;
  sv_connected : gset Peer;
  sv_pending : gmap H256 Pending;
  sv_out : gmap ReqId Kind;
  sv_range : option RangeSync }.
Definition set_chain (s : Server) c := mkSrv c (sv_connected s) (sv_pending s) (sv_out s) (sv_range s).
Definition set_connected (s : Server) c := mkSrv (sv_chain s) c (sv_pending s) (sv_out s) (sv_range s).
Definition set_pending (s : Server) p := mkSrv (sv_chain s) (sv_connected s) p (sv_out s) (sv_range s).
Definition set_out (s : Server) o := mkSrv (sv_chain s) (sv_connected s) (sv_pending s) o (sv_range s).
Definition set_range (s : Server) r := mkSrv (sv_chain s) (sv_connected s) (sv_pending s) (sv_out s) r.

(** What the handlers do to the outside: requests sent, blocks handed to the chain
    actor with source [Sync], and a message to itself after a delay. *)
Inductive Action :=
| SendStatus (p : Peer)
| SendRoot (id : ReqId) (p : Peer) (root : H256)
| SendRange (id : ReqId) (p : Peer) (start_slot count : N)
| Deliver (b : SignedBlock)
| RetryAfter (root : H256) (ms : N).

(** One handler sends at most one tracked request.  [oc_pick] resolves the choice of
    the peer, [oc_sent] is the result of [SwarmHandle::send_request]
    (swarm_adapter.rs:60-81): the number of the request, or [None] when the swarm task
    has ended. *)
Record Oracle := mkOc { oc_pick : Peer; oc_sent : option ReqId }.

(** An element of a nonempty set: the wished one if possible. *)
Definition choose (pick : Peer) (pool : gset Peer) : option Peer :=
  if decide (pick ∈ pool) then Some pick else head (elements pool).

(** ** lib.rs:83-136 [RangeSyncState] *)

(** 129-132 *)
Definition drop_stale_peers (r : RangeSync) : RangeSync :=
  mkRS (rs_start r) (rs_end r) (filter (fun x => rs_start r <= x.2) (rs_peers r)) (rs_flight r).
(** 84-90 *)
Definition rs_new (start end_ : N) (p : Peer) (peer_head : N) : RangeSync :=
  mkRS start end_ {[ p := peer_head ]} false.
(** 92-96 *)
Definition merge_peer (r : RangeSync) (p : Peer) (peer_head end_exclusive : N) : RangeSync :=
  drop_stale_peers
    (mkRS (rs_start r) (N.max (rs_end r) end_exclusive) (<[ p := peer_head ]> (rs_peers r)) (rs_flight r)).

(** [max_by_key] over the entries that pass the filter: a peer with the greatest head.
    Which one of several depends on the order of the map: [pick]. *)
Definition best_head (m : gmap Peer N) : N := map_fold (fun _ h acc => N.max h acc) 0 m.
Definition best_peer (pick : Peer) (m : gmap Peer N) : option (Peer * N) :=
  let h := best_head m in
  let ties : gset Peer := list_to_set (map fst (map_to_list (filter (fun x => x.2 = h) m))) in
  match choose pick ties with Some p => Some (p, h) | None => None end.

(** 98-119 *)
Definition next_batch (pick : Peer) (r : RangeSync) : option (Peer * (N * N)) :=
  if rs_flight r || (rs_end r <=? rs_start r) then None
  else match best_peer pick (filter (fun x => rs_start r <= x.2) (rs_peers r)) with
       | None => None
       | Some (p, peer_head) =>
           let peer_end := sat_add peer_head 1 in
           let batch_end := N.min (N.min (sat_add (rs_start r) MAX_REQUEST_BLOCKS) (rs_end r)) peer_end in
           if rs_start r <? batch_end then Some (p, (rs_start r, batch_end)) else None
       end.
(** 121-125 *)
Definition complete_batch (r : RangeSync) (end_slot : N) : RangeSync :=
  drop_stale_peers (mkRS (N.max (rs_start r) (sat_add end_slot 1)) (rs_end r) (rs_peers r) false).
(** 127-131 *)
Definition fail_peer (r : RangeSync) (p : Peer) : RangeSync :=
  drop_stale_peers (mkRS (rs_start r) (rs_end r) (delete p (rs_peers r)) false).

(** ** handlers.rs *)

(** 546-557 *)
Definition fail_range_request (s : Server) (p : Peer) : Server :=
  match sv_range s with
  | None => s
  | Some r =>
      let r' := fail_peer r p in
      set_range s (if decide (rs_peers r' = ∅) then None else Some r')
  end.

(** 485-544 *)
Definition request_next_range_batch (oc : Oracle) (s : Server) : Server * list Action :=
  match sv_range s with
  | None => (s, [])
  | Some r =>
      match next_batch (oc_pick oc) r with
      | None => (s, [])
      | Some (p, (a, e)) =>
          match oc_sent oc with
          | None => (fail_range_request s p, [])
          | Some id =>
              (set_out (set_range s (Some (mkRS (rs_start r) (rs_end r) (rs_peers r) true)))
                 (<[ id := KRange a (e - 1) ]> (sv_out s)),
               [SendRange id p a (e - a)])
          end
      end
  end.

(** 167-199 *)
Definition handle_status_response (oc : Oracle) (s : Server) (p : Peer) (peer_head our_head : N)
  : Server * list Action :=
  if peer_head <=? our_head then (s, [])
  else
    let gap := peer_head - our_head in
    let start_slot := sat_add our_head 1 in
    let end_exclusive := sat_add start_slot (N.min gap MAX_SYNC_RANGE) in
    let r := match sv_range s with
             | Some r => merge_peer r p peer_head end_exclusive
             | None => rs_new start_slot end_exclusive p peer_head
             end in
    request_next_range_batch oc (set_range s (Some r)).

(** 401-483.  [roots.push] of one root into an empty list cannot fail. *)
Definition fetch_block_from_peer (oc : Oracle) (s : Server) (root : H256) : Server * list Action * bool :=
  if decide (sv_connected s = ∅) then (s, [], false)
  else
    let failed := match sv_pending s !! root with Some pd => pd_failed pd | None => ∅ end in
    let pool := sv_connected s ∖ failed in
    let '(s1, pool1) :=
      if decide (pool = ∅)
      then (set_pending s (alter (fun pd => mkPending (pd_attempts pd) ∅) root (sv_pending s)), sv_connected s)
      else (s, pool) in
    match choose (oc_pick oc) pool1 with
    | None => (s1, [], false)
    | Some p =>
        match oc_sent oc with
        | None => (s1, [], false)
        | Some id =>
            let pending := match sv_pending s1 !! root with
                           | Some _ => sv_pending s1
                           | None => <[ root := mkPending 1 ∅ ]> (sv_pending s1)
                           end in
            (set_out (set_pending s1 pending) (<[ id := KRoot root ]> (sv_out s1)),
             [SendRoot id p root], true)
        end
    end.

(** 559-587.  [attempts - 1] cannot underflow: attempts start at 1. *)
Definition handle_fetch_failure (s : Server) (root : H256) (p : Peer) : Server * list Action :=
  match sv_pending s !! root with
  | None => (s, [])
  | Some pd =>
      if MAX_FETCH_RETRIES <=? pd_attempts pd
      then (set_pending s (delete root (sv_pending s)), [])
      else
        let backoff_ms := INITIAL_BACKOFF_MS * BACKOFF_MULTIPLIER ^ (pd_attempts pd - 1) in
        (set_pending s (<[ root := mkPending (pd_attempts pd + 1) ({[ p ]} ∪ pd_failed pd) ]> (sv_pending s)),
         [RetryAfter root backoff_ms])
  end.

Section Handlers.
  Context (root_of : SignedBlock -> H256).

  (** 286-329, the loop over the blocks. *)
  Fixpoint root_loop (s : Server) (requested : H256) (blocks : list SignedBlock) : Server * list Action :=
    match blocks with
    | [] => (s, [])
    | b :: rest =>
        if decide (root_of b = requested)
        then
          let s1 := set_pending s (delete (root_of b) (sv_pending s)) in
          let '(s2, acts) := root_loop s1 requested rest in
          (s2, (if sv_chain s then [Deliver b] else []) ++ acts)
        else root_loop s requested rest
    end.
  (** 286-329.  An empty answer puts the request back before it is treated as failed. *)
  Definition handle_blocks_by_root_response (s : Server) (blocks : list SignedBlock) (p : Peer) (id : ReqId)
      (requested : H256) : Server * list Action :=
    match blocks with
    | [] => handle_fetch_failure (set_out s (<[ id := KRoot requested ]> (sv_out s))) requested p
    | _ => root_loop s requested blocks
    end.

  (** 331-379 *)
  Definition handle_blocks_by_range_response (oc : Oracle) (s : Server) (blocks : list SignedBlock) (p : Peer)
      (start_slot end_slot : N) : Server * list Action :=
    match blocks with
    | [] => (fail_range_request s p, [])
    | _ =>
        if sv_chain s
        then
          let delivered := map Deliver
            (List.filter (fun b => negb ((b_slot (sb_block b) <? start_slot) || (end_slot <? b_slot (sb_block b)))) blocks) in
          match sv_range s with
          | Some r =>
              let r' := complete_batch r end_slot in
              if (rs_end r' <=? rs_start r') || bool_decide (rs_peers r' = ∅)
              then (set_range s None, delivered)
              else
                let '(s', acts) := request_next_range_batch oc (set_range s (Some r')) in
                (s', delivered ++ acts)
          | None =>
              let '(s', acts) := request_next_range_batch oc s in
              (s', delivered ++ acts)
          end
        else (set_range s None, [])
    end.

  (** 62-90: a successful answer to a request for blocks.  The request is looked up and
      forgotten.  The codec gives block requests no other kind of answer
      (codec.rs:247-305: chunks with an error code are skipped), so the arm for error
      answers (91-107) never meets a tracked request and is left out. *)
  Definition handle_blocks (oc : Oracle) (s : Server) (p : Peer) (id : ReqId) (blocks : list SignedBlock)
    : Server * list Action :=
    let s1 := set_out s (delete id (sv_out s)) in
    match sv_out s !! id with
    | Some (KRange a e) => handle_blocks_by_range_response oc s1 blocks p a e
    | Some (KRoot root) => handle_blocks_by_root_response s1 blocks p id root
    | None => (s1, [])
    end.

  (** 110-142 *)
  Definition handle_outbound_failure (s : Server) (p : Peer) (id : ReqId) : Server * list Action :=
    let s1 := set_out s (delete id (sv_out s)) in
    match sv_out s !! id with
    | Some (KRoot root) => handle_fetch_failure s1 root p
    | Some (KRange _ _) => (fail_range_request s1 p, [])
    | None => (s1, [])
    end.

  (** lib.rs:525-535 *)
  Definition handle_fetch_block (oc : Oracle) (s : Server) (root : H256) : Server * list Action :=
    match sv_pending s !! root with
    | Some _ => (s, [])
    | None => (fetch_block_from_peer oc s root).1
    end.

  (** lib.rs:457-475 *)
  Definition handle_retry_block_fetch (oc : Oracle) (s : Server) (root : H256) : Server * list Action :=
    match sv_pending s !! root with
    | None => (s, [])
    | Some _ =>
        let '(s', acts, ok) := fetch_block_from_peer oc s root in
        if ok then (s', acts) else (set_pending s' (delete root (sv_pending s')), acts)
    end.

  (** ** The node in its network *)

  (** The network side: for each request that was sent and is neither answered nor
      failed, the peer and what was asked; the retry messages that will arrive; the
      number of the next request.  libp2p gives every request its own number and
      reports for each one answer or one failure, from the peer asked. *)
  Record Net := mkNet {
    nt_srv : Server;
    nt_live : gmap ReqId (Peer * Kind);
    nt_timers : list H256;
    nt_next : ReqId }.

  (** What can happen.  [EvConnected]: [first] if it is the only connection to the
      peer; [EvClosed]: [last] if no connection is left.  [EvStatus] carries the head
      slot of the peer and the own head slot at that time. *)
  Inductive Event :=
  | EvInit
  | EvConnected (p : Peer) (first : bool)
  | EvClosed (p : Peer) (last : bool)
  | EvFetch (root : H256)
  | EvRetry (root : H256)
  | EvStatus (p : Peer) (peer_head our_head : N)
  | EvBlocks (id : ReqId) (blocks : list SignedBlock)
  | EvFailure (id : ReqId).

  (** The network takes up what a handler did. *)
  Definition take_action (n : Net) (a : Action) : Net :=
    match a with
    | SendRoot id p root => mkNet (nt_srv n) (<[ id := (p, KRoot root) ]> (nt_live n)) (nt_timers n) (id + 1)
    | SendRange id p a c => mkNet (nt_srv n) (<[ id := (p, KRange a (a + c - 1)) ]> (nt_live n)) (nt_timers n) (id + 1)
    | RetryAfter root _ => mkNet (nt_srv n) (nt_live n) (nt_timers n ++ [root]) (nt_next n)
    | _ => n
    end.
  Definition set_srv (n : Net) (s : Server) : Net := mkNet s (nt_live n) (nt_timers n) (nt_next n).
  Definition take_all (n : Net) (r : Server * list Action) : Net * list Action :=
    (fold_left take_action r.2 (set_srv n r.1), r.2).

  Fixpoint remove_one (r : H256) (l : list H256) : option (list H256) :=
    match l with
    | [] => None
    | x :: l' => if decide (x = r) then Some l' else option_map (cons x) (remove_one r l')
    end.

  (** One event: [None] if it cannot happen (an answer to a request that is not
      waiting for one, a retry that was not scheduled).  The peer a request is sent to
      is [pick] when possible; [ok] tells whether requests can be sent. *)
  Definition step (pick : Peer) (ok : bool) (n : Net) (ev : Event) : option (Net * list Action) :=
    let s := nt_srv n in
    let oc := mkOc pick (if ok then Some (nt_next n) else None) in
    match ev with
    | EvInit => Some (take_all n (set_chain s true, []))
    (** lib.rs:559-600 *)
    | EvConnected p first =>
        Some (take_all n (if first then (set_connected s ({[ p ]} ∪ sv_connected s), [SendStatus p]) else (s, [])))
    (** lib.rs:601-655 *)
    | EvClosed p last =>
        Some (take_all n (if last then (set_connected s (sv_connected s ∖ {[ p ]}), []) else (s, [])))
    | EvFetch root => Some (take_all n (handle_fetch_block oc s root))
    | EvRetry root =>
        match remove_one root (nt_timers n) with
        | None => None
        | Some t => Some (take_all (mkNet s (nt_live n) t (nt_next n)) (handle_retry_block_fetch oc s root))
        end
    (** slots are [u64] *)
    | EvStatus p peer_head our_head =>
        if two64 <=? peer_head then None
        else Some (take_all n (handle_status_response oc s p peer_head our_head))
    | EvBlocks id blocks =>
        match nt_live n !! id with
        | None => None
        | Some (p, _) =>
            Some (take_all (mkNet s (delete id (nt_live n)) (nt_timers n) (nt_next n)) (handle_blocks oc s p id blocks))
        end
    | EvFailure id =>
        match nt_live n !! id with
        | None => None
        | Some (p, _) =>
            Some (take_all (mkNet s (delete id (nt_live n)) (nt_timers n) (nt_next n)) (handle_outbound_failure s p id))
        end
    end.

  (** lib.rs:383-399: at the start nothing is tracked. *)
  Definition net0 : Net := mkNet (mkSrv false ∅ ∅ ∅ None) ∅ [] 0.
End Handlers.
