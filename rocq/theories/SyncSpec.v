(** Vocabulary for the properties of block fetching and range sync. *)
From Verif Require Export Sync.
Local Open Scope N_scope.

Section Spec.
  Context (root_of : SignedBlock -> H256).

  (** One entry of the history of a node: the state before, what happened, whether
      requests could be sent, what the node did. *)
  Record Entry := mkEntry { en_pre : Net; en_event : Event; en_ok : bool; en_acts : list Action }.

  (** [run n l m]: the history [l] leads from [n] to [m]. *)
  Inductive run : Net -> list Entry -> Net -> Prop :=
  | run_nil n : run n [] n
  | run_step n pick ok ev n' acts l m :
      step root_of pick ok n ev = Some (n', acts) ->
      run n' l m ->
      run n (mkEntry n ev ok acts :: l) m.

  (** All that a history did. *)
  Definition acts_of (l : list Entry) : list Action := concat (map en_acts l).
  Definition happened (ev : Event) (l : list Entry) : Prop := exists x, x ∈ l /\ en_event x = ev.
  Definition reached (n : Net) : Prop := exists l, run net0 l n.

  (** ** Range sync *)

  (** The node is syncing a range. *)
  Definition syncing (n : Net) : Prop := exists r, sv_range (nt_srv n) = Some r.
  (** It syncs slots below [t] and has yet to ask for those from [a] on. *)
  Definition sync_range (n : Net) (a t : N) : Prop :=
    exists r, sv_range (nt_srv n) = Some r /\ rs_start r = a /\ rs_end r = t.
  (** A peer it syncs from, with the head slot the peer advertised. *)
  Definition sync_peer (n : Net) (p : Peer) (h : N) : Prop :=
    exists r, sv_range (nt_srv n) = Some r /\ rs_peers r !! p = Some h.
  (** Request [id] for the slots from [a] to [e] waits for its answer. *)
  Definition waiting_range (n : Net) (id : ReqId) (p : Peer) (a e : N) : Prop :=
    nt_live n !! id = Some (p, KRange a e).
  (** The range requests of a history, in order: first slot and number of slots. *)
  Definition batches (acts : list Action) : list (N * N) :=
    omap (fun x => match x with SendRange _ _ a c => Some (a, c) | _ => None end) acts.
  (** The blocks handed to the chain, in order. *)
  Definition handed_on (acts : list Action) : list SignedBlock :=
    omap (fun x => match x with Deliver b => Some b | _ => None end) acts.
  (** Up to where the slots were asked for. *)
  Definition frontier (n : Net) (f : N) : Prop :=
    (exists id p a e, waiting_range n id p a e /\ f = e + 1) \/
    ((forall id p a e, ~ waiting_range n id p a e) /\ exists t, sync_range n f t).
  (** The batches cover the slots from [f] to below [g], each slot once and in order. *)
  Fixpoint tiles (f : N) (l : list (N * N)) (g : N) : Prop :=
    match l with
    | [] => f = g
    | (a, c) :: l' => a = f /\ 0 < c /\ tiles (f + c) l' g
    end.
  (** The answer that a range request got (or its failure) brings no blocks. *)
  Definition range_failure (x : Entry) : Prop :=
    exists id p a e, waiting_range (en_pre x) id p a e /\ (en_event x = EvFailure id \/ en_event x = EvBlocks id []).
  (** Request [id] was answered with blocks, or it failed (or was answered without). *)
  Definition answered (id : ReqId) (l : list Entry) : Prop :=
    exists bs, bs <> [] /\ happened (EvBlocks id bs) l.
  Definition failed (id : ReqId) (l : list Entry) : Prop :=
    happened (EvFailure id) l \/ happened (EvBlocks id []) l.

  (** ** Single blocks *)

  (** The node considers a fetch of the block as going on. *)
  Definition tracked (n : Net) (r : H256) : Prop := exists pd, sv_pending (nt_srv n) !! r = Some pd.
  (** Request [id] for the block waits for its answer. *)
  Definition waiting_root (n : Net) (id : ReqId) (p : Peer) (r : H256) : Prop :=
    nt_live n !! id = Some (p, KRoot r).
  (** Nothing is under way for the block: no request, no retry. *)
  Definition quiet (n : Net) (r : H256) : Prop :=
    (forall id p, ~ waiting_root n id p r) /\ r ∉ nt_timers n.
  (** The requests for the block and the delays of its retries, in order. *)
  Definition requests (r : H256) (acts : list Action) : list Peer :=
    omap (fun x => match x with SendRoot _ p r' => if decide (r' = r) then Some p else None | _ => None end) acts.
  Definition backoffs (r : H256) (acts : list Action) : list N :=
    omap (fun x => match x with RetryAfter r' ms => if decide (r' = r) then Some ms else None | _ => None end) acts.
  Definition schedule : list N := [5; 10; 20; 40; 80; 160; 320; 640; 1280].
  (** Peer [p] failed to give the block: failure of the request or an empty answer. *)
  Definition peer_failed (p : Peer) (r : H256) (x : Entry) : Prop :=
    exists id, waiting_root (en_pre x) id p r /\ (en_event x = EvFailure id \/ en_event x = EvBlocks id []).
  (** [P] held before every event of the history and holds at its end. *)
  Definition throughout (P : Net -> Prop) (l : list Entry) (m : Net) : Prop :=
    (forall x, x ∈ l -> P (en_pre x)) /\ P m.
  (** A fetch of the block from its beginning: before the event [x] it was not tracked,
      since then it is. *)
  Definition session (r : H256) (n0 : Net) (x : Entry) (l : list Entry) (m : Net) : Prop :=
    reached n0 /\ ~ tracked n0 r /\ run n0 (x :: l) m /\ throughout (fun n => tracked n r) l m.
End Spec.
