(** A node that misses blocks and a peer that has them (C85): the actor of Actor.v and
    the request handler of Serve.v, put together. *)
From Verif Require Export DutySpec Serve.

Section Exchange.
  Context (E : Env) (C : Config) (p : Node).

  (** What peer [p] sends back when asked for one block by its root
      (req_resp/handlers.rs:201-223 answering req_resp/handlers.rs:399-470).  Lost requests,
      retries and the choice of the peer are in Sync.v; here every request is answered. *)
  Definition answer (r : H256) : list SignedBlock :=
    match handle_blocks_by_root E p [r] with RBlocks l => l | RInvalid => [] end.

  (** The blocks [q] are delivered one after another; each block the actor asks for is
      delivered after those on the way.  One element of [Ws] per delivery: what happens
      outside meanwhile and whether the block comes by gossip.  Result: the actor, the
      roots asked for in order, and what was left to deliver when [Ws] ran out. *)
  Fixpoint exchange (Ws : list (World * bool)) (a : Actor) (q : list SignedBlock)
    : res unit (Actor * list H256 * list SignedBlock) :=
    match q, Ws with
    | [], _ => Ok (a, [], [])
    | _, [] => Ok (a, [], q)
    | sb :: q', (W, g) :: Ws' =>
        let! x := actor_step E C W a (m_block sb g) in
        let! y := exchange Ws' x.1 (q' ++ concat (map answer (fetched x.2))) in
        Ok (y.1.1, fetched x.2 ++ y.1.2, y.2)
    end.
End Exchange.

(** Each block names the one before it as its parent. *)
Definition chained (E : Env) (bs : list SignedBlock) : Prop :=
  forall i x y, bs !! i = Some x -> bs !! S i = Some y ->
    b_parent (sb_block y) = block_root (e_header E) (e_body E) (sb_block x).
