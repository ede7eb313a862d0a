(** Vocabulary for the start-up properties. *)
From Verif Require Export Startup.

(** The state belongs to this network: genesis time and the whole registry. *)
Definition ours (g : GenesisConfig) (s : State) : Prop :=
  s_genesis_time s = gc_time g /\
  length (s_validators s) = length (gc_entries g) /\
  forall i a p, gc_entries g !! i = Some (a, p) -> s_validators s !! i = Some (mkVal a p (N.of_nat i)).

(** The checkpoints and the latest header of a state fit together. *)
Record coherent (hash_header : Header -> H256) (s : State) : Prop := {
  co_fin : cp_slot (s_finalized s) <= s_slot s;
  co_just : cp_slot (s_finalized s) <= cp_slot (s_justified s);
  co_same : cp_slot (s_justified s) = cp_slot (s_finalized s) -> cp_root (s_justified s) = cp_root (s_finalized s);
  co_header : h_slot (s_header s) <= s_slot s;
  co_header_fin : h_slot (s_header s) = cp_slot (s_finalized s) -> hash_header (s_header s) = cp_root (s_finalized s);
  co_header_just : h_slot (s_header s) = cp_slot (s_justified s) -> hash_header (s_header s) = cp_root (s_justified s) }.

(** A checkpoint state that may be used. *)
Definition usable (E : Env) (g : GenesisConfig) (s : State) : Prop :=
  s_slot s <> 0 /\ gc_entries g <> [] /\ ours g s /\ coherent (e_header E) s.

(** The answers are a usable state and its block; a usable state and a block that is
    not its block. *)
Definition good_answer (E : Env) (g : GenesisConfig) (x : option State * option SignedBlock) (pair : State * SignedBlock) : Prop :=
  x = (Some pair.1, Some pair.2) /\ usable E g pair.1 /\ anchor_matches (e_state E) (e_body E) pair.1 (sb_block pair.2).
Definition mispaired (E : Env) (g : GenesisConfig) (x : option State * option SignedBlock) : Prop :=
  exists s sb, x = (Some s, Some sb) /\ usable E g s /\ ~ anchor_matches (e_state E) (e_body E) s (sb_block sb).

(** A URL yields a pair: its answer to one of three attempts is good, the answers
    before were mispaired. *)
Definition yields (E : Env) (g : GenesisConfig) (answer : nat -> option State * option SignedBlock) (pair : State * SignedBlock) : Prop :=
  exists k, (k < 3)%nat /\ good_answer E g (answer k) pair /\ forall j, (j < k)%nat -> mispaired E g (answer j).
Definition fails (E : Env) (g : GenesisConfig) (answer : nat -> option State * option SignedBlock) : Prop :=
  forall pair, ~ yields E g answer pair.

(** In one of five rounds some URL yields the pair; all URLs tried before fail. *)
Definition first_yield (E : Env) (g : GenesisConfig) (urls : nat) (net : Answers) (pair : State * SignedBlock) : Prop :=
  exists r p, (r < 5)%nat /\ (p < urls)%nat /\ yields E g (net r p) pair /\
    (forall p', (p' < p)%nat -> fails E g (net r p')) /\
    (forall r' p', (r' < r)%nat -> (p' < urls)%nat -> fails E g (net r' p')).
Definition no_yield (E : Env) (g : GenesisConfig) (urls : nat) (net : Answers) : Prop :=
  forall r p, (r < 5)%nat -> (p < urls)%nat -> fails E g (net r p).

(** The database has a chain whose finalized state is [s]; its head is at [slot]. *)
Definition finalized_state (d : Db) (s : State) : Prop :=
  read_state (db_tab d) (cp_root (db_fin d)) = Ok (Some s).
(** At most 450 slots behind the clock. *)
Definition recent (g : GenesisConfig) (now_ms slot : N) : Prop :=
  (now_ms - 1000 * gc_time g) / 4000 <= slot + 450.

(** Nothing usable on disk: no chain, or an own chain too far behind. *)
Definition unusable_disk (g : GenesisConfig) (now_ms : N) (k : Disk) : Prop :=
  match k with
  | DNew _ => True
  | DChain d => exists s slot, finalized_state d s /\ ours g s /\ has_slot (db_tab d) (db_head d) slot /\
      ~ recent g now_ms slot
  end.
