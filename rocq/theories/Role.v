(** Model of the aggregator role: the shared flag (crates/common/types/src/aggregator.rs),
    the admin endpoint (crates/net/rpc/src/admin.rs) and the actor that reads the flag
    (crates/blockchain/src/lib.rs).

    Simplified: a toggle falls between two messages of the actor.  The code snapshots
    the flag at the start of a tick (lib.rs:325-331); while a gossip vote or a block is
    handled it reads the flag again at each use. *)
From Verif Require Export Actor.
From Coq Require Export Strings.String.

(** JSON values (serde_json).  [j_obj] lists the fields in the order of the text; the
    later of two fields with one name replaces the earlier (serde_json's map). *)
Inductive Json :=
| j_null
| j_bool (b : bool)
| j_num (z : Z)
| j_str (s : string)
| j_arr (l : list Json)
| j_obj (l : list (string * Json)).

(** serde_json [Value::get] with a string: only objects have fields. *)
Definition json_get (k : string) (v : Json) : option Json :=
  match v with
  | j_obj l => fold_left (fun o p => if String.eqb p.1 k then Some p.2 else o) l None
  | _ => None
  end.
(** serde_json [Value::as_bool] *)
Definition as_bool (v : Json) : option bool := match v with j_bool b => Some b | _ => None end.

(** The body of a POST as axum 0.8 hands it to the extractor [Option<Json<Value>>]: no
    content type, another content type than JSON, text that is not JSON, or a value. *)
Inductive Body := b_absent | b_other_type | b_malformed | b_value (v : Json).

(** admin.rs:33-42 and the error statuses *)
Inductive Answer :=
| a_status (is_aggregator : bool)
| a_toggle (is_aggregator previous : bool)
| a_error (code : N).

(** admin.rs:55-64; [None]: no controller *)
Definition get_aggregator (ctl : option bool) : Answer :=
  match ctl with Some f => a_status f | None => a_error 503 end.

(** admin.rs:75-106 with aggregator.rs:22-25: the controller's flag afterwards and the
    answer.  The extractor's rejections come before the handler runs. *)
Definition post_aggregator (ctl : option bool) (b : Body) : option bool * Answer :=
  match b with
  | b_other_type => (ctl, a_error 415)
  | b_malformed => (ctl, a_error 400)
  | b_absent => (ctl, a_error (match ctl with None => 503 | Some _ => 400 end))
  | b_value v =>
      match ctl with
      | None => (None, a_error 503)
      | Some old =>
          match json_get "enabled" v with
          | None => (ctl, a_error 400)
          | Some x =>
              match as_bool x with
              | None => (ctl, a_error 400)
              | Some enabled => (Some enabled, a_toggle enabled old)
              end
          end
      end
  end.

(** What happens outside while a message is handled, with the flag's value. *)
Definition with_flag (W : World) (f : bool) : World :=
  mkWorld (w_now W) (w_after W) f (w_iter W) (w_sign W) (w_build W) (w_reagg W) (w_jobs W).

(** A running node: the flag, shared by the API server and the actor
    (bin/ethlambda/src/main.rs:215-218, 246, 302), and the actor. *)
Record System := mkSystem { y_flag : bool; y_actor : Actor }.
(** main.rs:218: the flag starts with the value of [--is-aggregator]. *)
Definition boot (cli : bool) (n : Node) : System := mkSystem cli (start_actor n).

Inductive SysEvent :=
| y_get
| y_post (b : Body)
| y_message (W : World) (m : message).
Inductive SysOut :=
| o_answer (x : Answer)
| o_effects (fx : list Effect).

Definition sys_step (E : Env) (C : Config) (s : System) (e : SysEvent) : res unit (System * SysOut) :=
  match e with
  | y_get => Ok (s, o_answer (get_aggregator (Some (y_flag s))))
  | y_post b =>
      let x := post_aggregator (Some (y_flag s)) b in
      Ok (mkSystem (default (y_flag s) x.1) (y_actor s), o_answer x.2)
  | y_message W m =>
      let! x := actor_step E C (with_flag W (y_flag s)) (y_actor s) m in
      Ok (mkSystem (y_flag s) x.1, o_effects x.2)
  end.
