(** A history with votes, a restart and a block. *)
From Verif Require Export ActorFetch ActorExamples.
Local Open Scope N_scope.

(** Block building gives a block on the genesis block. *)
Definition xw_b (now : N) : World :=
  mkWorld now now true elements (fun v _ => Some (100 + v))
    (fun _ slot _ => let sb := x_sb (x_block ze (stored_anchor (e_state ze) z_gen) slot []) in
       if b_slot (sb_block sb) =? slot then Some sb else None) (fun _ _ => []) (fun _ _ _ => true).
Lemma xw_b_ok now : world_ok (xw_b now).
Proof. by intros s. Qed.
Lemma xw_b_slot now : builds_slot (xw_b now).
Proof.
  intros n slot v sb. cbn [w_build xw_b]. generalize (x_sb (x_block ze (stored_anchor (e_state ze) z_gen) slot [])).
  intros sb0. cbn zeta. destruct (b_slot (sb_block sb0) =? slot) eqn:H; [|done]. intros [= <-]. by apply N.eqb_eq.
Qed.

Section Life.
  Context (E : Env) (C : Config).
  (** [None]: a restart. *)
  Fixpoint xl_run (a : Actor) (ms : list (option (World * message)))
    : res unit (Actor * list (Actor * World * message * list Effect)) :=
    match ms with
    | [] => Ok (a, [])
    | Some (W, m) :: ms' =>
        let! x := actor_step E C W a m in
        let! y := xl_run x.1 ms' in
        Ok (y.1, (a, W, m, x.2) :: y.2)
    | None :: ms' => xl_run (start_actor (start_node (nd_db (ac_node a)))) ms'
    end.
  Lemma lifetime_app a l a1 l' a2 : lifetime E C a l a1 -> lifetime E C a1 l' a2 -> lifetime E C a (l ++ l') a2.
  Proof.
    intros H1 H2. induction H2 as [|l' b1 W m b2 fx H IH HW Hs|l' b1 H IH]; [by rewrite app_nil_r| |].
    - rewrite app_assoc. by econstructor.
    - by apply lt_restart.
  Qed.
  Lemma xl_run_sound ms a a' l : Forall (fun x => match x with Some y => world_ok y.1 | None => True end) ms ->
    xl_run a ms = Ok (a', l) -> lifetime E C a l a'.
  Proof.
    intros HW. revert a l. induction HW as [|[[W m]|] ms HW Hms IH]; intros a l; cbn [xl_run].
    - intros [= <- <-]. constructor.
    - intros H. apply rbind_Ok in H as ([a1 fx] & H1 & H). apply rbind_Ok in H as ([a2 l2] & H2 & H).
      injection H as <- <-. cbn [fst snd] in *. change ((a, W, m, fx) :: l2) with ([(a, W, m, fx)] ++ l2).
      eapply lifetime_app; [|by apply IH]. change [(a, W, m, fx)] with ([] ++ [(a, W, m, fx)]).
      by econstructor; [constructor| |].
    - intros H. apply IH in H. change l with ([] ++ l). eapply lifetime_app; [apply lt_restart; constructor|done].
  Qed.
  Definition xl_end (a : Actor) ms : Actor := match xl_run a ms with Ok x => x.1 | _ => a end.
  Definition xl_log (a : Actor) ms := match xl_run a ms with Ok x => x.2 | _ => [] end.
  Lemma xl_ok ms a : Forall (fun x => match x with Some y => world_ok y.1 | None => True end) ms ->
    is_ok (xl_run a ms) = true -> lifetime E C a (xl_log a ms) (xl_end a ms).
  Proof.
    unfold xl_log, xl_end. intros HW H. destruct (xl_run a ms) as [[a' l]| |] eqn:Hr; [|done|done]. by apply (xl_run_sound ms).
  Qed.
End Life.

(** Vote in slot 1, restart, the clock steps back, vote in slot 2, propose for slot 3,
    restart, the same ticks again, vote in slot 3. *)
Definition yd_m : list (option (World * message)) :=
  [Some (xw_b (x_at 1 1), m_tick); None; Some (xw_b (x_at 0 1), m_tick); Some (xw_b (x_at 1 1), m_tick);
   Some (xw_b (x_at 2 1), m_tick); Some (xw_b (x_at 2 4), m_tick); None; Some (xw_b (x_at 2 1), m_tick);
   Some (xw_b (x_at 2 4), m_tick); Some (xw_b (x_at 3 1), m_tick)].
Definition yd_l := xl_log ze xc za0 yd_m.
Definition yd := xl_end ze xc za0 yd_m.
Lemma yd_life : lifetime ze xc za0 yd_l yd.
Proof.
  apply xl_ok; [|vm_compute; reflexivity]. unfold yd_m.
  repeat (apply List.Forall_cons; [first [apply xw_b_ok|exact I]|]); apply List.Forall_nil.
Qed.
(** Before the tick that proposes. *)
Definition yd5 := xl_end ze xc za0 (take 5 yd_m).
Lemma yd5_life : lifetime ze xc za0 (xl_log ze xc za0 (take 5 yd_m)) yd5.
Proof.
  apply xl_ok; [|vm_compute; reflexivity]. unfold yd_m. cbn [take].
  repeat (apply List.Forall_cons; [first [apply xw_b_ok|exact I]|]); apply List.Forall_nil.
Qed.
Lemma yd5_reach : reachable ze 1000 x_vals (ac_node yd5).
Proof. exact (life_reach ze xc 1000 x_vals ze_good x_vals_few za0 _ _ z_reach0 yd5_life). Qed.
