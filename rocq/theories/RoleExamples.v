(** Concrete histories with toggles of the aggregator role. *)
From Verif Require Export RoleSim ActorExamples.
Local Open Scope N_scope.

Section YRun.
  Context (E : Env) (C : Config).
  Fixpoint xy_run (s : System) (es : list SysEvent) : res unit (System * list (SysEvent * SysOut)) :=
    match es with
    | [] => Ok (s, [])
    | e :: es' =>
        let! x := sys_step E C s e in
        let! y := xy_run x.1 es' in
        Ok (y.1, (e, x.2) :: y.2)
    end.
  Lemma sys_run_app s l s1 l' s2 : sys_run E C s l s1 -> sys_run E C s1 l' s2 -> sys_run E C s (l ++ l') s2.
  Proof.
    intros H1 H2. induction H2 as [|l' t1 e o t2 H IH Hs]; [by rewrite app_nil_r|]. rewrite app_assoc. by econstructor.
  Qed.
  Lemma xy_run_sound es s s' l : xy_run s es = Ok (s', l) -> sys_run E C s l s' /\ map fst l = es.
  Proof.
    revert s l. induction es as [|e es IH]; intros s l; cbn [xy_run].
    - intros [= <- <-]. split; [constructor|done].
    - intros H. apply rbind_Ok in H as ([s1 o] & H1 & H). apply rbind_Ok in H as ([s2 l2] & H2 & H).
      injection H as <- <-. cbn [fst snd] in *. apply IH in H2 as [H2 H3]. split; [|cbn; by rewrite H3].
      change ((e, o) :: l2) with ([(e, o)] ++ l2). eapply sys_run_app; [|exact H2].
      change [(e, o)] with ([] ++ [(e, o)]). by econstructor; [constructor|].
  Qed.
  Definition xy_end (s : System) (es : list SysEvent) : System := match xy_run s es with Ok x => x.1 | _ => s end.
  Definition xy_log (s : System) (es : list SysEvent) : list (SysEvent * SysOut) :=
    match xy_run s es with Ok x => x.2 | _ => [] end.
  Lemma xy_ok es s : is_ok (xy_run s es) = true ->
    sys_run E C s (xy_log s es) (xy_end s es) /\ map fst (xy_log s es) = es.
  Proof.
    unfold xy_end, xy_log. intros H. destruct (xy_run s es) as [[s' l]| |] eqn:Hr; [|done|done]. by apply xy_run_sound.
  Qed.
End YRun.

(** Request bodies: two fields of one name, no object, a string for the boolean. *)
Definition y_on : Body := b_value (j_obj [("enabled"%string, j_bool false); ("note"%string, j_num 1); ("enabled"%string, j_bool true)]).
Definition y_off : Body := b_value (j_obj [("enabled"%string, j_bool false)]).
Definition y_text : Body := b_value (j_obj [("enabled"%string, j_str "true")]).
Lemma y_on_asks : asks y_on true.
Proof. exists [("enabled"%string, j_bool false); ("note"%string, j_num 1)], []. split; [done|]. intros p Hp. by apply elem_of_nil in Hp. Qed.
Lemma y_off_asks : asks y_off false.
Proof. exists [], []. split; [done|]. intros p Hp. by apply elem_of_nil in Hp. Qed.
Lemma y_off_not : ~ asks y_off true.
Proof. intros H. pose proof (asks_fun _ _ _ H y_off_asks). done. Qed.
Lemma y_text_not v : ~ asks y_text v.
Proof.
  destruct (post_spec false y_text) as [(v' & _ & H)|(H & _)]; [discriminate H|apply H].
Qed.

(** Switched on at the API, a session in slot 1, switched off, the worker's aggregate
    arrives, slot 2 passes without a session. *)
Definition ya_es1 : list SysEvent :=
  [y_get; y_post y_text; y_post y_on; y_get; y_message (xw (x_at 1 1) false) m_tick;
   y_message (xw (x_at 1 2) false) m_tick].
Definition ya_es2 : list SysEvent :=
  [y_post y_off; y_message (xw (x_at 1 2) false) (m_produced 1 z_data (mkProof [true] 7) [0] [(0, x_data z_data)]);
   y_message (xw (x_at 2 1) false) m_tick; y_message (xw (x_at 2 2) false) m_tick].
Definition ya1 : System := xy_end ze xc (boot false z_n0) ya_es1.
Definition ya_l1 := xy_log ze xc (boot false z_n0) ya_es1.
Lemma ya_run1 : sys_run ze xc (boot false z_n0) ya_l1 ya1.
Proof. apply xy_ok. vm_compute. reflexivity. Qed.
Definition ya1' : System := xy_end ze xc ya1 (take 1 ya_es2).
Definition ya2 : System := xy_end ze xc ya1' (drop 1 ya_es2).
Definition ya_l2 := xy_log ze xc ya1' (drop 1 ya_es2).
Lemma ya_run2 : sys_run ze xc ya1' ya_l2 ya2.
Proof. apply xy_ok. vm_compute. reflexivity. Qed.
Definition ya_answers (l : list (SysEvent * SysOut)) : list Answer :=
  omap (fun p => match p.2 with o_answer x => Some x | _ => None end) l.

(** The same ticks, votes and blocks on a node that is an aggregator throughout and on
    one that never is. *)
Definition yc_m : list (World * message) :=
  [(xw (x_at 1 1) false, m_tick); (xw (x_at 1 1 + 300) false, m_attestation (mkSA 1 z_data 101));
   (xw (x_at 1 2) false, m_tick); (xw (x_at 2 1) false, m_tick);
   (xw (x_at 2 1) false, m_block (x_sb zb2) true); (xw (x_at 2 1) false, m_block (x_sb zb1) true)].
Definition yc_es (b : Body) : list SysEvent := y_post b :: map (fun x => y_message x.1 x.2) yc_m.
Definition yc1 := xy_end ze xc (boot false z_n0) (yc_es y_on).
Definition yc_l1 := xy_log ze xc (boot false z_n0) (yc_es y_on).
Definition yc2 := xy_end ze xc (boot false z_n0) (yc_es y_text).
Definition yc_l2 := xy_log ze xc (boot false z_n0) (yc_es y_text).
Lemma yc_run1 : sys_run ze xc (boot false z_n0) yc_l1 yc1.
Proof. apply xy_ok. vm_compute. reflexivity. Qed.
Lemma yc_run2 : sys_run ze xc (boot false z_n0) yc_l2 yc2.
Proof. apply xy_ok. vm_compute. reflexivity. Qed.
Lemma messages_fst l : messages l = omap (fun e => match e with y_message W m => Some (W, m) | _ => None end) (map fst l).
Proof. unfold messages. induction l as [|[[|b|W m] o] l IH]; cbn; [done|..]; [exact IH|exact IH|]. by f_equal. Qed.
Lemma yc_messages1 : messages yc_l1 = yc_m.
Proof.
  rewrite messages_fst. destruct (xy_ok ze xc (yc_es y_on) (boot false z_n0)) as [_ H]; [vm_compute; reflexivity|].
  unfold yc_l1. rewrite H. reflexivity.
Qed.
Lemma yc_messages2 : messages yc_l2 = yc_m.
Proof.
  rewrite messages_fst. destruct (xy_ok ze xc (yc_es y_text) (boot false z_n0)) as [_ H]; [vm_compute; reflexivity|].
  unfold yc_l2. rewrite H. reflexivity.
Qed.
Lemma yc_related : Forall2 (fun x y => same_world x.1 y.1 /\ x.2 = y.2 /\ ~ is_produced x.2) (messages yc_l1) (messages yc_l2).
Proof.
  rewrite yc_messages1, yc_messages2. unfold yc_m.
  repeat (apply Forall2_cons_2; [cbn [fst snd]; split_and!; [by split|reflexivity|cbn; tauto]|]). apply Forall2_nil_2.
Qed.
