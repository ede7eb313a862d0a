(** C84: the aggregator role can be read and switched at run time; without it the node
    aggregates nothing; it never changes what the node does as a chain follower. *)
From Verif Require Import RoleExamples.
Local Open Scope N_scope.

(** At every moment of every history, the API reports the role last asked for (or the
    one of the command line); a well-formed request takes effect and reports the role it
    replaced; any other request is an error and changes nothing. *)
Theorem C84_answers E C cli n l s :
  sys_run E C (boot cli n) l s ->
  (exists f, role_after cli l f) /\ (forall f, role_after cli l f -> y_flag s = f) /\
  (forall i e o, l !! i = Some (e, o) -> exists f, role_after cli (take i l) f /\
    match e with
    | y_get => o = o_answer (a_status f)
    | y_post b => (exists v, asks b v /\ o = o_answer (a_toggle v f)) \/
        ((forall v, ~ asks b v) /\ (o = o_answer (a_error 400) \/ o = o_answer (a_error 415)))
    | y_message W m => exists fx, o = o_effects fx
    end).
Proof. intros H. split; [exact (role_total cli l)|exact (answers_pf E C cli n l s H)]. Qed.
Print Assumptions C84_answers.

Example C84_answers_nonvacuous :
  sys_run ze xc (boot false z_n0) ya_l1 ya1 /\
  ya_answers ya_l1 = [a_status false; a_error 400; a_toggle true false; a_status true].
Proof. split; [exact ya_run1|vm_compute; reflexivity]. Qed.

(** From a moment without the role, for as long as nobody asks for it: no aggregation
    session starts, no signature is collected, and the only aggregates published are
    those of the worker that was running at that moment. *)
Theorem C84_off E C s l s' :
  sys_run E C s l s' -> y_flag s = false -> never_asked true l ->
  sessions (out_effects l) = [] /\ ac_session (y_actor s') = ac_session (y_actor s) /\
  no_new_signatures (ac_node (y_actor s)) (ac_node (y_actor s')) /\
  forall sg, sg ∈ aggregates (out_effects l) -> exists id participants keys W o,
    (y_message W (m_produced id (sg_data sg) (sg_proof sg) participants keys), o) ∈ l /\
    ac_session (y_actor s) = Some id.
Proof.
  intros H1 H2 H3. destruct (off_run E C s l s' H1 H2 H3) as (_ & H4 & H5 & H6 & H7).
  exact (conj H6 (conj H5 (conj H4 H7))).
Qed.
Print Assumptions C84_off.

(** Booted without the role and never asked for it: no session, no aggregate. *)
Theorem C84_never E C n l s :
  sys_run E C (boot false n) l s -> never_asked true l ->
  sessions (out_effects l) = [] /\ aggregates (out_effects l) = [] /\
  no_new_signatures n (ac_node (y_actor s)).
Proof.
  intros H1 H3. destruct (off_run E C _ l s H1 eq_refl H3) as (_ & H4 & H5 & H6 & H7).
  split; [exact H6|]. split; [|exact H4]. destruct (aggregates (out_effects l)) as [|sg x]; [reflexivity|].
  destruct (H7 sg (elem_of_list_here _ _)) as (id & _ & _ & _ & _ & _ & H). discriminate H.
Qed.
Print Assumptions C84_never.

Example C84_off_nonvacuous :
  sys_run ze xc ya1' ya_l2 ya2 /\ y_flag ya1' = false /\ sessions (out_effects ya_l1) = [1] /\
  sessions (out_effects ya_l2) = [] /\ ac_session (y_actor ya1') = Some 1 /\
  aggregates (out_effects ya_l2) = [mkSAgg z_data (mkProof [true] 7)].
Proof. split; [exact ya_run2|]. vm_compute. auto. Qed.

(** With the role - whatever the history that led to it - the tick of the aggregation
    interval starts the session of its slot if there is anything to aggregate. *)
Theorem C84_on E C gt vals cli n l s W s' fx :
  good_hash (e_header E) -> lenN vals <= VALIDATOR_REGISTRY_LIMIT -> vals <> [] -> reachable E gt vals n ->
  sys_run E C (boot cli n) l s -> role_after cli l true ->
  sys_step E C s (y_message W m_tick) = Ok (s', o_effects fx) ->
  let i := wall_interval W (y_actor s) in
  db_time (nd_db (ac_node (y_actor s))) < i -> i mod 5 = 2 -> ac_session (y_actor s) <> Some (i / 5) ->
  exists k, if w_jobs W (ac_node (y_actor s')) (i / 5) k then fx_session (i / 5) k ∈ fx else sessions fx = [].
Proof. intros H1 H2. exact (on_pf E C gt vals H1 H2 cli n l s W s' fx). Qed.
Print Assumptions C84_on.

Example C84_on_nonvacuous :
  let l := take 5 ya_l1 in let s := xy_end ze xc (boot false z_n0) (take 5 ya_es1) in
  let W := xw (x_at 1 2) false in
  sys_run ze xc (boot false z_n0) l s /\ role_after false l true /\
  wall_interval W (y_actor s) = 7 /\ ac_session (y_actor s) = None /\
  exists s', sys_step ze xc s (y_message W m_tick) = Ok (s', o_effects [fx_session 1 2]).
Proof.
  cbn zeta.
  assert (sys_run ze xc (boot false z_n0) (take 5 ya_l1) (xy_end ze xc (boot false z_n0) (take 5 ya_es1))) as Hr.
  { assert (take 5 ya_l1 = xy_log ze xc (boot false z_n0) (take 5 ya_es1)) as -> by (vm_compute; reflexivity).
    apply xy_ok. vm_compute. reflexivity. }
  split; [exact Hr|]. split.
  { destruct (role_total false (take 5 ya_l1)) as [f Hf].
    assert (y_flag (xy_end ze xc (boot false z_n0) (take 5 ya_es1)) = true) as Hy by (vm_compute; reflexivity).
    pose proof (role_flag _ _ _ _ _ _ _ Hr Hf) as H. rewrite Hy in H. rewrite H. exact Hf. }
  split; [vm_compute; reflexivity|]. split; [vm_compute; reflexivity|].
  eexists. vm_compute. reflexivity.
Qed.

(** Two nodes that agree on everything but collected signatures and sessions and see the
    same messages - apart from the results of their own workers - import, store, vote,
    propose, fetch and report the same, whatever their roles and however these are
    switched. *)
Theorem C84_chain E C s s' l l' t t' :
  sys_run E C s l t -> sys_run E C s' l' t' -> same_actor (y_actor s) (y_actor s') ->
  Forall2 (fun x y => same_world x.1 y.1 /\ x.2 = y.2 /\ ~ is_produced x.2) (messages l) (messages l') ->
  same_actor (y_actor t) (y_actor t') /\ ordinary (out_effects l) = ordinary (out_effects l').
Proof. exact (chain_pf E C s s' l l' t t'). Qed.
Print Assumptions C84_chain.

Example C84_chain_nonvacuous :
  sys_run ze xc (boot false z_n0) yc_l1 yc1 /\ sys_run ze xc (boot false z_n0) yc_l2 yc2 /\
  Forall2 (fun x y => same_world x.1 y.1 /\ x.2 = y.2 /\ ~ is_produced x.2) (messages yc_l1) (messages yc_l2) /\
  sessions (out_effects yc_l1) = [1] /\ sessions (out_effects yc_l2) = [] /\
  bf_total (nd_gossip (ac_node (y_actor yc1))) = 3 /\ bf_total (nd_gossip (ac_node (y_actor yc2))) = 0 /\
  has_state (tab (ac_node (y_actor yc2))) (x_root ze zb2) = true.
Proof.
  split; [exact yc_run1|]. split; [exact yc_run2|]. split; [exact yc_related|]. vm_compute. auto.
Qed.
