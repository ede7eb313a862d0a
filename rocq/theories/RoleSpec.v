(** Vocabulary for the aggregator role. *)
From Verif Require Export Role ActorSpec.

Inductive sys_run (E : Env) (C : Config) (s : System) : list (SysEvent * SysOut) -> System -> Prop :=
| yr_nil : sys_run E C s [] s
| yr_snoc l s1 e o s2 :
    sys_run E C s l s1 -> sys_step E C s1 e = Ok (s2, o) -> sys_run E C s (l ++ [(e, o)]) s2.

(** A well-formed request to set the role: a JSON object whose field "enabled" is the
    boolean [v].  The last field of that name counts. *)
Definition asks (b : Body) (v : bool) : Prop :=
  exists l1 l2, b = b_value (j_obj (l1 ++ ("enabled"%string, j_bool v) :: l2)) /\
    forall p, p ∈ l2 -> p.1 <> "enabled"%string.

(** The role in force after the events: the last one asked for, else [cli]. *)
Inductive role_after (cli : bool) : list (SysEvent * SysOut) -> bool -> Prop :=
| ra_nil : role_after cli [] cli
| ra_set l f b v o : role_after cli l f -> asks b v -> role_after cli (l ++ [(y_post b, o)]) v
| ra_bad l f b o : role_after cli l f -> (forall v, ~ asks b v) -> role_after cli (l ++ [(y_post b, o)]) f
| ra_get l f o : role_after cli l f -> role_after cli (l ++ [(y_get, o)]) f
| ra_message l f W m o : role_after cli l f -> role_after cli (l ++ [(y_message W m, o)]) f.

(** What the history publishes. *)
Definition out_effects (l : list (SysEvent * SysOut)) : list Effect :=
  concat (map (fun p => match p.2 with o_effects fx => fx | _ => [] end) l).
Definition aggregates (fx : list Effect) : list SignedAgg :=
  omap (fun x => match x with fx_publish_agg sg => Some sg | _ => None end) fx.

(** Nobody asks for the role [v] in the events. *)
Definition never_asked (v : bool) (l : list (SysEvent * SysOut)) : Prop :=
  forall b o, (y_post b, o) ∈ l -> ~ asks b v.

(** [n'] holds no signature for aggregation that [n] does not hold. *)
Definition no_new_signatures (n n' : Node) : Prop :=
  forall r e' v sig, bf_data (nd_gossip n') !! r = Some e' -> ge_sigs e' !! v = Some sig ->
    exists e, bf_data (nd_gossip n) !! r = Some e /\ ge_sigs e !! v = Some sig.

(** Two nodes that differ at most in the signatures collected for aggregation; two
    actors that differ at most in those and in the aggregation session. *)
Record same_chain (n n' : Node) : Prop := {
  sc_db : nd_db n = nd_db n';
  sc_votes : nd_votes n = nd_votes n';
  sc_new : nd_new n = nd_new n';
  sc_known : nd_known n = nd_known n' }.
Record same_actor (a a' : Actor) : Prop := {
  sm_node : same_chain (ac_node a) (ac_node a');
  sm_pend : ac_pend a = ac_pend a';
  sm_par : ac_par a = ac_par a';
  sm_syncing : ac_syncing a = ac_syncing a' }.
(** The same outside, up to the role and to what there is to aggregate; blocks and
    recovered aggregates are made from what the two nodes have in common. *)
Record same_world (W W' : World) : Prop := {
  sw_now : w_now W = w_now W';
  sw_after : w_after W = w_after W';
  sw_iter : forall s, w_iter W s = w_iter W' s;
  sw_sign : forall v d, w_sign W v d = w_sign W' v d;
  sw_build : forall n n' s v, same_chain n n' -> w_build W n s v = w_build W' n' s v;
  sw_reagg : forall n n' sb, same_chain n n' -> w_reagg W n sb = w_reagg W' n' sb }.
(** The effects other than aggregation sessions and published aggregates. *)
Definition ordinary (fx : list Effect) : list Effect :=
  List.filter (fun x => match x with fx_session _ _ | fx_publish_agg _ => false | _ => true end) fx.
(** The messages of a history. *)
Definition messages (l : list (SysEvent * SysOut)) : list (World * message) :=
  omap (fun p => match p.1 with y_message W m => Some (W, m) | _ => None end) l.
Definition is_produced (m : message) : Prop :=
  match m with m_produced _ _ _ _ _ => True | _ => False end.
