(** The HTTP stream of chain events: what a client gets. *)
From Coq Require Import Ascii String.
From Verif Require Import BusThms.
Local Open Scope N_scope.

(** ** C71 *)
(** A request is accepted if and only if it names topics, separated by commas; all
    others get 400. *)
Theorem C71_query json b q : bs_closed b = false ->
  ((exists c b', bus_step json b (OConnect q) = (b', [SOpened c])) <->
   exists T, T <> [] /\ q = Some (comma_list (map topic_str T))) /\
  ((~ exists T, T <> [] /\ q = Some (comma_list (map topic_str T))) ->
   bus_step json b (OConnect q) = (b, [SRefused])).
Proof. exact (C71_query_pf json b q). Qed.
Print Assumptions C71_query.

(** Whatever happens, and in whatever order the server's tasks run: the client has got,
    in order, the events of its topics from those emitted since it connected, up to some
    point, and for those left out their exact number. *)
Theorem C71_stream json capacity b T c b' ops :
  bus_reachable json capacity b -> opened json b T c b' ->
  exists read unread, emitted ops = (read ++ unread)%list /\
    shows json T read (frames_of c (bus_run json b' ops).2).
Proof. exact (C71_stream_pf json capacity b T c b' ops). Qed.
Print Assumptions C71_stream.

(** Once nothing is emitted any more and its task gets to run, all events have been
    accounted for. *)
Theorem C71_complete json capacity b T c b' p m :
  bus_reachable json capacity b -> opened json b T c b' -> stays c (p ++ m) ->
  emitted (p ++ m) = emitted p -> lenN (emitted p) <= reads c m ->
  shows json T (emitted p) (frames_of c (bus_run json b' (p ++ m)).2).
Proof. exact (C71_complete_pf json capacity b T c b' p m). Qed.
Print Assumptions C71_complete.

(** Events are left out only if more than the capacity (rounded up to a power of two)
    were waiting; then the capacity's worth of the newest is kept. *)
Theorem C71_dropped json capacity b T c b' ops b'' n :
  bus_reachable json capacity b -> opened json b T c b' ->
  bus_step json (bus_run json b' ops).1 (ORead c) = (b'', [SFrame c (FDropped n)]) ->
  0 < n /\ exists read unread, emitted ops = (read ++ unread)%list /\
    shows json T read (frames_of c (bus_run json b' ops).2) /\ lenN unread = 2 ^ N.log2_up capacity + n.
Proof. exact (C71_dropped_pf json capacity b T c b' ops b'' n). Qed.
Print Assumptions C71_dropped.

(** A client whose task in no stretch of time falls behind by more than the capacity
    gets every event of its topics. *)
Theorem C71_keeps_up json capacity b T c b' ops :
  bus_reachable json capacity b -> opened json b T c b' -> stays c ops ->
  (forall p m s, ops = (p ++ m ++ s)%list -> lenN (emitted m) <= reads c m + 2 ^ N.log2_up capacity) ->
  exists read unread, emitted ops = (read ++ unread)%list /\
    frames_of c (bus_run json b' ops).2 = shown json T read /\ lenN unread <= 2 ^ N.log2_up capacity.
Proof. exact (C71_keeps_up_pf json capacity b T c b' ops). Qed.
Print Assumptions C71_keeps_up.

(** The stream ends only when the node does, after everything that was emitted. *)
Theorem C71_end json capacity b T c b' ops :
  bus_reachable json capacity b -> opened json b T c b' -> SEnd c ∈ (bus_run json b' ops).2 ->
  OShutdown ∈ ops /\ shows json T (emitted ops) (frames_of c (bus_run json b' ops).2).
Proof. exact (C71_end_pf json capacity b T c b' ops). Qed.
Print Assumptions C71_end.

(** What one client gets does not depend on how the others read or when they leave. *)
Theorem C71_independent json capacity b T c b' ops :
  bus_reachable json capacity b -> opened json b T c b' -> stays c ops ->
  frames_of c (bus_run json b' ops).2 = frames_of c (bus_run json b' (without_others c ops)).2.
Proof. exact (C71_independent_pf json capacity b T c b' ops). Qed.
Print Assumptions C71_independent.

(** Two clients, the second slow, with room for two events. *)
Definition x_json (e : ChainEvent) : option string :=
  Some match e with
       | CeHead s _ _ => ("slot:" +:+ pretty s)%string
       | CeBlock s _ => ("slot:" +:+ pretty s)%string
       | _ => "?"%string
       end.
Definition x_bus : Bus := (bus_run x_json (mkBus 2 [] 0 ∅ 0 false) [OConnect (Some "block"%string); OConnect (Some "head,heads"%string)]).1.
Definition x_bus1 : Bus := (bus_step x_json x_bus (OConnect (Some "head,block"%string))).1.
Definition x_ops : list BusOp :=
  [OEmit (CeBlock 1 7); OEmit (CeHead 1 7 8); ORead 0; ORead 1; OEmit (CeAttestation 3 (mkAD 0 (mkCp 0 0) (mkCp 0 0) (mkCp 0 0)));
   ORead 0; ORead 0; OEmit (CeBlock 2 9); OEmit (CeHead 2 9 10); ORead 1; ORead 1; ODisconnect 0; ORead 1; OShutdown; ORead 1].
Example C71_nonvacuous :
  new_bus CHAIN_EVENT_CHANNEL_CAPACITY = Ok (mkBus 8192 [] 0 ∅ 0 false) /\
  bus_reachable x_json 2 x_bus /\ opened x_json x_bus [THead; TBlock] 1 x_bus1 /\ stays 1 x_ops /\
  frames_of 1 (bus_run x_json x_bus1 x_ops).2 =
    [FEvent "block" "slot:1"; FDropped 2; FEvent "block" "slot:2"; FEvent "head" "slot:2"] /\
  frames_of 0 (bus_run x_json x_bus1 x_ops).2 = [FEvent "block" "slot:1"] /\
  last (bus_run x_json x_bus1 x_ops).2 = Some (SEnd 1).
Proof.
  split_and!; try (vm_compute; reflexivity).
  - exists (mkBus 2 [] 0 ∅ 0 false), [OConnect (Some "block"%string); OConnect (Some "head,heads"%string)]. split; vm_compute; reflexivity.
  - unfold stays, x_ops. intros H. repeat (apply elem_of_cons in H as [H|H]; [done|]). by apply elem_of_nil in H.
Qed.
(** ... and one that keeps up. *)
Example C71_keeps_up_nonvacuous :
  let ops := [OEmit (CeBlock 1 7); OEmit (CeHead 1 7 8); ORead 1; OEmit (CeBlock 2 9); ORead 1; ORead 1] in
  (forall p m s, ops = (p ++ m ++ s)%list -> lenN (emitted m) <= reads 1 m + 2 ^ N.log2_up 2) /\
  frames_of 1 (bus_run x_json x_bus1 ops).2 = [FEvent "block" "slot:1"; FEvent "head" "slot:1"; FEvent "block" "slot:2"].
Proof.
  cbv zeta. split; [|vm_compute; reflexivity].
  set (ops := [_; _; _; _; _; _]). intros p m s H.
  assert (Hm : m = take (length m) (drop (length p) ops)) by (by rewrite H, drop_app, take_app).
  assert (Hl : (length p + length m <= 6)%nat) by (apply (f_equal length) in H; rewrite !app_length in H; cbn in H; lia).
  assert (Hall : forallb (fun i => forallb (fun j => let m := take j (drop i ops) in
    lenN (emitted m) <=? reads 1 m + 2 ^ N.log2_up 2) (seq 0 7)) (seq 0 7) = true) by (vm_compute; reflexivity).
  rewrite forallb_forall in Hall. specialize (Hall (length p) ltac:(apply in_seq; lia)). cbv beta in Hall.
  rewrite forallb_forall in Hall. specialize (Hall (length m) ltac:(apply in_seq; lia)). cbv zeta in Hall.
  rewrite <- Hm in Hall. by apply N.leb_le.
Qed.
