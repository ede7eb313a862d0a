(** Vocabulary of the pool properties C25, C26. *)
From Verif Require Export Pools.

(** Every set bit of [a] is set in [b]. *)
Definition covered (a b : Bits) : Prop := forall i, a !! i = Some true -> b !! i = Some true.

(** All stored proofs with their data root. *)
Definition stored_proofs (b : Buf PayloadEntry) : list (H256 * Proof_) :=
  concat (map (fun re => map (pair re.1) (pe_proofs re.2)) (map_to_list (bf_data b))).
(** Proofs stored for a root. *)
Definition proofs_of (b : Buf PayloadEntry) (r : H256) : list Proof_ :=
  match bf_data b !! r with Some e => pe_proofs e | None => [] end.

(** All stored signatures: (root, validator, signature). *)
Definition stored_sigs (b : Buf GossipEntry) : list (H256 * (N * N)) :=
  concat (map (fun re => map (pair re.1) (map_to_list (ge_sigs re.2))) (map_to_list (bf_data b))).
Definition sig_of (b : Buf GossipEntry) (r : H256) (v : N) : option N :=
  match bf_data b !! r with Some e => ge_sigs e !! v | None => None end.

(** [m] without the keys [l]. *)
Definition without {E} (l : list H256) (m : gmap H256 E) : gmap H256 E :=
  filter (fun x => x.1 ∉ l) m.

(** Operations on the payload pool. *)
Inductive pool_op :=
| Push (d : AttestationData) (p : Proof_)
| Drain
| Prune (fin : N).
Section Runs.
  Context (ad_hash : AttestationData -> H256).
  Definition pool_step (b : Buf PayloadEntry) (o : pool_op) : res unit (Buf PayloadEntry) :=
    match o with
    | Push d p => payload_push ad_hash b d p
    | Drain => Ok (payload_drain b).1
    | Prune f => let! x := payload_prune f b in Ok x.1
    end.
  (** All states after an initial one, one per operation. *)
  Inductive pool_run : Buf PayloadEntry -> list pool_op -> list (Buf PayloadEntry) -> Buf PayloadEntry -> Prop :=
  | pool_run_nil b : pool_run b [] [] b
  | pool_run_cons b o b1 os bs b' :
      pool_step b o = Ok b1 -> pool_run b1 os bs b' -> pool_run b (o :: os) (b1 :: bs) b'.

  Inductive sig_op :=
  | SInsert (d : AttestationData) (v sig : N)
  | SDelete (keys : list (N * H256))
  | SPrune (fin : N).
  Definition sig_step (b : Buf GossipEntry) (o : sig_op) : res unit (Buf GossipEntry) :=
    match o with
    | SInsert d v s => gossip_insert ad_hash b d v s
    | SDelete ks => gossip_delete b ks
    | SPrune f => let! x := gossip_prune f b in Ok x.1
    end.
  Inductive sig_run : Buf GossipEntry -> list sig_op -> Buf GossipEntry -> Prop :=
  | sig_run_nil b : sig_run b [] b
  | sig_run_snoc b os b1 o b' :
      sig_run b os b1 -> sig_step b1 o = Ok b' -> sig_run b (os ++ [o]) b'.

  (** The signature last inserted for validator [v] and root [r]. *)
  Fixpoint last_inserted (os : list sig_op) (r : H256) (v : N) (acc : option N) : option N :=
    match os with
    | [] => acc
    | SInsert d v' s :: os' =>
        last_inserted os' r v (if bool_decide (ad_hash d = r /\ v' = v) then Some s else acc)
    | _ :: os' => last_inserted os' r v acc
    end.
End Runs.
