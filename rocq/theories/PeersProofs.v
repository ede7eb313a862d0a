(** Connections and bootnodes: proofs. *)
From Verif Require Export Peers.
Local Open Scope N_scope.

Lemma take_one_in {A} `{EqDecision A} (x : A) l l' : take_one x l = Some l' -> x ∈ l /\ forall y, y ∈ l -> y <> x -> y ∈ l'.
Proof.
  revert l'. induction l as [|z l IH]; intros l'; cbn; [done|]. case_decide as Hz.
  - intros [= ->]. subst. split; [by left|]. intros y. rewrite elem_of_cons. by intros [->|?].
  - destruct (take_one x l) as [l1|]; [|done]. intros [= <-]. destruct (IH _ eq_refl) as [H1 H2]. split; [by right|].
    intros y. rewrite !elem_of_cons. intros [->|Hy] Hne; [by left|right; by apply H2].
Qed.
Lemma take_one_sub {A} `{EqDecision A} (x : A) l l' y : take_one x l = Some l' -> y ∈ l' -> y ∈ l.
Proof.
  revert l'. induction l as [|z l IH]; intros l'; cbn; [done|]. case_decide as Hz.
  - intros [= ->] Hy. by right.
  - destruct (take_one x l) as [l1|]; [|done]. intros [= <-]. rewrite !elem_of_cons. intros [->|Hy]; [by left|right; by eapply IH].
Qed.

(** The connected peers once the waiting events are handled. *)
Definition view1 (c : gset N) (e : ConnEvent) : gset N :=
  match e with
  | CEstablished p k => if k =? 1 then {[ p ]} ∪ c else c
  | CClosed p k => if k =? 0 then c ∖ {[ p ]} else c
  | CError _ => c
  end.
Definition view (c : gset N) (es : list ConnEvent) : gset N := fold_left view1 es c.
Global Arguments view : simpl never.
Lemma view_lost es : forall c p, p ∈ c -> p ∉ view c es -> CClosed p 0 ∈ es.
Proof.
  induction es as [|e es IH]; intros c p Hc Hv; [done|]. change (view c (e :: es)) with (view (view1 c e) es) in Hv.
  destruct (decide (p ∈ view1 c e)) as [Hi|Hi]; [right; by eapply IH|].
  destruct e as [q k|q k|q]; cbn in Hi; [|destruct (N.eqb_spec k 0) as [->|]; [|done]|done].
  - exfalso. apply Hi. destruct (k =? 1); [apply elem_of_union; by right|done].
  - destruct (decide (p = q)) as [->|Hne]; [by left|]. exfalso. apply Hi. apply elem_of_difference. by rewrite elem_of_singleton.
Qed.
Lemma view_app c es e : view c (es ++ [e]) = view1 (view c es) e.
Proof. unfold view. by rewrite fold_left_app. Qed.

(** Something is under way for the bootnode. *)
Definition awaited (n : PeerNet) (p : N) : Prop :=
  0 < conns_of n p \/ p ∈ pn_dials n \/ p ∈ pn_cmds n \/ (exists due, (p, due) ∈ pn_timers n) \/
  CClosed p 0 ∈ pn_events n \/ CError (Some p) ∈ pn_events n.
Record PInv (n : PeerNet) (out : list PeerOut) : Prop := {
  pi_view : forall p, p ∈ view (pn_connected n) (pn_events n) <-> 0 < conns_of n p;
  pi_await : forall p, p ∈ pn_boot n -> awaited n p;
  pi_timer : forall p due, (p, due) ∈ pn_timers n ->
    p ∈ pn_boot n /\ due <= pn_now n + PEER_REDIAL_INTERVAL /\ exists t, PGone t p ∈ out /\ due = t + PEER_REDIAL_INTERVAL;
  pi_gone : forall t p, PGone t p ∈ out -> t <= pn_now n;
  pi_status : forall p, p ∈ pn_connected n -> exists t, PStatus t p ∈ out }.

Definition dial_ok (b : gset N) (out : list PeerOut) : Prop :=
  forall l1 t p l2, out = l1 ++ PDial t p :: l2 -> p ∈ b /\ exists t0, PGone t0 p ∈ l1 /\ t0 + PEER_REDIAL_INTERVAL <= t.
Lemma dial_ok_snoc b out x : dial_ok b out ->
  (forall t p, x = PDial t p -> p ∈ b /\ exists t0, PGone t0 p ∈ out /\ t0 + PEER_REDIAL_INTERVAL <= t) -> dial_ok b (out ++ [x]).
Proof.
  intros Ho Hx l1 t p l2 Heq. destruct (decide (l2 = [])) as [->|Hl].
  - apply app_inj_tail in Heq as [-> ->]. by apply Hx.
  - destruct (exists_last Hl) as (l3 & y & ->). rewrite app_comm_cons, app_assoc in Heq. apply app_inj_tail in Heq as [Heq _].
    by eapply Ho.
Qed.

Lemma conns_insert m q x p : default 0 ((<[q := x]> m : gmap N N) !! p) = if decide (p = q) then x else default 0 (m !! p).
Proof. case_decide as H; [subst; by rewrite lookup_insert|by rewrite lookup_insert_ne]. Qed.

Section Inv.
  Context (n : PeerNet) (out : list PeerOut) (HI : PInv n out).

  Lemma conn_up_inv q : PInv (conn_up n q) out.
  Proof.
    destruct HI as [Hv Ha Ht Hg Hs]. constructor; cbn; [| |done|done|done].
    - intros p. rewrite view_app. unfold conns_of. cbn. rewrite conns_insert. fold (conns_of n p) (conns_of n q). cbn.
      specialize (Hv p) as Hp. specialize (Hv q) as Hq.
      destruct (N.eqb_spec (conns_of n q + 1) 1) as [Hz|Hz]; case_decide as He; subst; rewrite ?elem_of_union, ?elem_of_singleton, ?Hp, ?Hq; split; intros H; lia || (try (destruct H; lia)); try done; try (by left); try (by right).
    - intros p Hp. destruct (Ha p Hp) as [H|[H|[H|[H|[H|H]]]]].
      + left. unfold conns_of. cbn. rewrite conns_insert. fold (conns_of n p) (conns_of n q). case_decide; lia.
      + right; by left.
      + do 2 right; by left.
      + do 3 right; by left.
      + do 4 right. left. cbn. apply elem_of_app. by left.
      + do 5 right. cbn. apply elem_of_app. by left.
  Qed.
  Lemma dials_inv l : (forall p, p ∈ pn_dials n -> p ∈ l) -> PInv (with_dials n l) out.
  Proof.
    intros Hl. destruct HI as [Hv Ha Ht Hg Hs]. constructor; cbn; [done| |done|done|done].
    intros p Hp. destruct (Ha p Hp) as [H|[H|H]]; [by left|right; left; by apply Hl|by do 2 right].
  Qed.
End Inv.

Lemma handle_event_inv n e es out : pn_events n = e :: es -> PInv n out ->
  PInv (handle_conn_event (with_events n es) e).1 (out ++ (handle_conn_event (with_events n es) e).2) /\
  pn_boot (handle_conn_event (with_events n es) e).1 = pn_boot n /\
  forall t p, PDial t p ∉ (handle_conn_event (with_events n es) e).2.
Proof.
  intros He [Hv Ha Ht Hg Hs].
  assert (forall p, p ∈ view (view1 (pn_connected n) e) es <-> 0 < conns_of n p) as Hv'.
  { intros p. rewrite <- Hv, He. done. }
  clear Hv. assert (forall p c, p ∈ c -> view c es = view (view1 (pn_connected n) e) es -> 0 < conns_of n p \/ CClosed p 0 ∈ es) as Hlost.
  { intros p c Hc Heq. destruct (decide (p ∈ view c es)) as [Hi|Hi]; [left; apply Hv'; by rewrite <- Heq|right; by eapply view_lost]. }
  assert (forall (Q : Prop) p, p ∈ pn_boot n -> (CClosed p 0 = e -> Q) -> (CError (Some p) = e -> Q) ->
    Q \/ 0 < conns_of n p \/ p ∈ pn_dials n \/ p ∈ pn_cmds n \/ (exists due, (p, due) ∈ pn_timers n) \/ CClosed p 0 ∈ es \/ CError (Some p) ∈ es) as Hcase.
  { intros Q p Hp H1 H2. destruct (Ha p Hp) as [H|[H|[H|[H|[H|H]]]]]; rewrite ?He in H.
    - by right; left.
    - by do 2 right; left.
    - by do 3 right; left.
    - by do 4 right; left.
    - apply elem_of_cons in H as [H|H]; [left; by apply H1|by do 5 right; left].
    - apply elem_of_cons in H as [H|H]; [left; by apply H2|by do 6 right]. }
  destruct e as [q k|q k|[q|]]; cbn [handle_conn_event].
  - destruct (N.eqb_spec k 1) as [->|Hk]; cbn [fst snd].
    + split; [|split; [done|intros t p; rewrite elem_of_list_singleton; done]]. constructor; cbn.
      * exact Hv'.
      * intros p Hp. destruct (Hcase False p Hp) as [[]|H]; [done|done|exact H].
      * intros p due H. destruct (Ht p due H) as (? & ? & t & ? & ?). split; [done|]. split; [done|]. exists t. split; [apply elem_of_app; by left|done].
      * intros t p H. apply elem_of_app in H as [H|H]; [by eapply Hg|]. by apply elem_of_list_singleton in H.
      * intros p H. apply elem_of_union in H as [H|H]; [apply elem_of_singleton in H as ->; eexists; apply elem_of_app; right; by left|].
        destruct (Hs p H) as [t ?]. exists t. apply elem_of_app. by left.
    + rewrite app_nil_r. split; [|split; [done|intros t p; apply not_elem_of_nil]]. constructor; cbn; [|intros p Hp; destruct (Hcase False p Hp) as [[]|H]; [done|done|exact H]|done|done|done].
      intros p. specialize (Hv' p). cbn in Hv'. rewrite (proj2 (N.eqb_neq k 1)) in Hv' by done. exact Hv'.
  - destruct (N.eqb_spec k 0) as [->|Hk]; cbn [fst snd].
    + case_bool_decide as Hb; cbn [fst snd]; cbn in Hb.
      * split; [|split; [done|intros t p; rewrite elem_of_list_singleton; done]]. constructor; cbn.
        -- exact Hv'.
        -- intros p Hp. destruct (decide (p = q)) as [->|Hne].
           { do 3 right. left. eexists. cbn. apply elem_of_app. right. by left. }
           destruct (Hcase False p Hp) as [[]|[H|[H|[H|[[due H]|H]]]]]; [by intros [=]|done|by left|by right; left|by do 2 right; left| |by do 4 right].
           do 3 right. left. exists due. cbn. apply elem_of_app. by left.
        -- intros p due H. apply elem_of_app in H as [H|H].
           ++ destruct (Ht p due H) as (? & ? & t & ? & ?). split; [done|]. split; [done|]. exists t. split; [apply elem_of_app; by left|done].
           ++ apply elem_of_list_singleton in H as [= -> ->]. split; [done|]. split; [lia|]. eexists. split; [apply elem_of_app; right; by left|done].
        -- intros t p H. apply elem_of_app in H as [H|H]; [by eapply Hg|]. apply elem_of_list_singleton in H as [= -> _]. lia.
        -- intros p H. apply elem_of_difference in H as [H _]. destruct (Hs p H) as [t ?]. exists t. apply elem_of_app. by left.
      * rewrite app_nil_r. split; [|split; [done|intros t p; apply not_elem_of_nil]]. constructor; cbn; [exact Hv'| |done|done|].
        -- intros p Hp. destruct (Hcase False p Hp) as [[]|H]; [intros [= ->]; done|done|exact H].
        -- intros p H. apply elem_of_difference in H as [H _]. by apply Hs.
    + rewrite app_nil_r. split; [|split; [done|intros t p; apply not_elem_of_nil]]. constructor; cbn; [|intros p Hp; destruct (Hcase False p Hp) as [[]|H]; [intros [=]; lia|done|exact H]|done|done|done].
      intros p. specialize (Hv' p). cbn in Hv'. rewrite (proj2 (N.eqb_neq k 0)) in Hv' by done. exact Hv'.
  - case_bool_decide as Hb; [case_bool_decide as Hc|]; cbn [andb fst snd]; cbn in *.
    + split; [|split; [done|intros t p; rewrite elem_of_list_singleton; done]]. constructor; cbn; [done| | | |].
      * intros p Hp. destruct (decide (p = q)) as [->|Hne].
        { do 3 right. left. eexists. cbn. apply elem_of_app. right. by left. }
        destruct (Hcase False p Hp) as [[]|[H|[H|[H|[[due H]|H]]]]]; [done|by intros [=]|by left|by right; left|by do 2 right; left| |by do 4 right].
        do 3 right. left. exists due. cbn. apply elem_of_app. by left.
      * intros p due H. apply elem_of_app in H as [H|H].
        -- destruct (Ht p due H) as (? & ? & t & ? & ?). split; [done|]. split; [done|]. exists t. split; [apply elem_of_app; by left|done].
        -- apply elem_of_list_singleton in H as [= -> ->]. split; [done|]. split; [lia|]. eexists. split; [apply elem_of_app; right; by left|done].
      * intros t p H. apply elem_of_app in H as [H|H]; [by eapply Hg|]. apply elem_of_list_singleton in H as [= -> _]. lia.
      * intros p H. destruct (Hs p H) as [t ?]. exists t. apply elem_of_app. by left.
    + rewrite app_nil_r. split; [|split; [done|intros t p; apply not_elem_of_nil]]. constructor; cbn; [done| |done|done|done].
      intros p Hp. destruct (Hcase (p = q) p Hp) as [->|H]; [done|by intros [= ->]| |exact H].
      destruct (Hlost q (pn_connected n)) as [H|H]; [done|done|by left|by do 4 right; left].
    + rewrite app_nil_r. split; [|split; [done|intros t p; apply not_elem_of_nil]]. constructor; cbn; [done| |done|done|done].
      intros p Hp. destruct (Hcase False p Hp) as [[]|H]; [done|intros [= ->]; done|exact H].
  - rewrite app_nil_r. cbn [fst snd]. split; [|split; [done|intros t p; apply not_elem_of_nil]]. constructor; cbn; [done| |done|done|done].
    intros p Hp. destruct (Hcase False p Hp) as [[]|H]; [done|done|exact H].
Qed.

Lemma step_inv n out o n' out' : PInv n out -> dial_ok (pn_boot n) out -> peers_step n o = Some (n', out') ->
  PInv n' (out ++ out') /\ dial_ok (pn_boot n) (out ++ out') /\ pn_boot n' = pn_boot n.
Proof.
  intros HI Hd. destruct o as [d|q|q|q|q|q|q|start| |q due]; cbn [peers_step].
  - intros [= <- <-]. rewrite app_nil_r. split; [|done]. destruct HI as [Hv Ha Ht Hg Hs]. constructor; cbn; [done|done| | |done].
    + intros p due H. destruct (Ht p due H) as (? & ? & ?). split; [done|]. split; [lia|done].
    + intros t p H. apply Hg in H. lia.
  - intros [= <- <-]. rewrite app_nil_r. split; [by apply conn_up_inv|done].
  - intros [= <- <-]. rewrite app_nil_r. split; [|done]. apply dials_inv; [done|]. intros p H. apply elem_of_app. by left.
  - destruct (take_one q (pn_dials n)) as [l|] eqn:Hl; [|done]. intros [= <- <-]. rewrite app_nil_r. split; [|done].
    pose proof (conn_up_inv n out HI q) as [Hv Ha Ht Hg Hs]. constructor; cbn; [done| |done|done|done].
    intros p Hp. destruct (decide (p = q)) as [->|Hne].
    { left. unfold conns_of. cbn. rewrite conns_insert, decide_True by done. lia. }
    destruct (Ha p Hp) as [H|[H|H]]; [by left| |by do 2 right]. right. left. by apply (take_one_in _ _ _ Hl).
  - destruct (take_one q (pn_dials n)) as [l|] eqn:Hl; [|done]. intros [= <- <-]. rewrite app_nil_r. split; [|done].
    destruct HI as [Hv Ha Ht Hg Hs]. constructor; cbn; [| |done|done|done].
    + intros p. rewrite view_app. apply Hv.
    + intros p Hp. destruct (decide (p = q)) as [->|Hne]; [do 5 right; cbn; apply elem_of_app; right; by left|].
      destruct (Ha p Hp) as [H|[H|[H|[H|[H|H]]]]].
      * by left.
      * right; left. by apply (take_one_in _ _ _ Hl).
      * by do 2 right; left.
      * by do 3 right; left.
      * do 4 right. left. cbn. apply elem_of_app. by left.
      * do 5 right. cbn. apply elem_of_app. by left.
  - intros [= <- <-]. rewrite app_nil_r. split; [|done].
    destruct HI as [Hv Ha Ht Hg Hs]. constructor; cbn; [| |done|done|done].
    + intros p. rewrite view_app. apply Hv.
    + intros p Hp. destruct (Ha p Hp) as [H|[H|[H|[H|[H|H]]]]].
      * by left.
      * by right; left.
      * by do 2 right; left.
      * by do 3 right; left.
      * do 4 right. left. cbn. apply elem_of_app. by left.
      * do 5 right. cbn. apply elem_of_app. by left.
  - destruct (N.eqb_spec (conns_of n q) 0) as [Hz|Hz]; [done|]. intros [= <- <-]. rewrite app_nil_r. split; [|done].
    destruct HI as [Hv Ha Ht Hg Hs]. constructor; cbn; [| |done|done|done].
    + intros p. rewrite view_app. unfold conns_of. cbn. rewrite conns_insert. fold (conns_of n p) (conns_of n q).
      specialize (Hv p) as Hp. destruct (N.eqb_spec (conns_of n q - 1) 0) as [H1|H1]; case_decide as He; subst;
        rewrite ?elem_of_difference, ?elem_of_singleton, ?Hp; split; intros H; lia || (try (destruct H; lia)); try done; destruct H; done.
    + intros p Hp. destruct (Ha p Hp) as [H|[H|[H|[H|[H|H]]]]].
      * unfold awaited, conns_of. cbn. rewrite conns_insert. fold (conns_of n p) (conns_of n q). case_decide as He; [|by left]. subst.
        destruct (N.eq_dec (conns_of n q - 1) 0) as [H1|H1]; [|left; lia]. do 4 right. left. rewrite H1. apply elem_of_app. right. by left.
      * by right; left.
      * by do 2 right; left.
      * by do 3 right; left.
      * do 4 right. left. cbn. apply elem_of_app. by left.
      * do 5 right. cbn. apply elem_of_app. by left.
  - destruct (pn_cmds n) as [|q l] eqn:Hc; [done|].
    assert (forall ds, (forall p, p ∈ pn_dials n -> p ∈ ds) -> (0 < conns_of n q \/ q ∈ ds) ->
      PInv (mkPN (pn_now n) (pn_boot n) (pn_connected n) (pn_timers n) (pn_events n) l (pn_conns n) ds) out) as Hgen.
    { intros ds Hds Hq. destruct HI as [Hv Ha Ht Hg Hs]. constructor; cbn; [done| |done|done|done].
      intros p Hp. destruct (Ha p Hp) as [H|[H|[H|H]]]; [by left|right; left; by apply Hds| |by do 3 right].
      rewrite Hc in H. apply elem_of_cons in H as [->|H]; [|by do 2 right; left]. destruct Hq as [?|?]; [by left|by right; left]. }
    destruct (start || _) eqn:Hst; intros [= <- <-]; rewrite app_nil_r; (split; [|done]).
    + apply Hgen; [intros p H; apply elem_of_app; by left|right; apply elem_of_app; right; by left].
    + apply Hgen; [done|]. apply orb_false_iff in Hst as [_ Hst]. apply andb_false_iff in Hst as [Hst|Hst].
      * apply N.eqb_neq in Hst. left. lia.
      * apply bool_decide_eq_false in Hst. right. by apply dec_stable.
  - destruct (pn_events n) as [|e es] eqn:He; [done|]. intros [= Hh].
    destruct (handle_event_inv n e es out He HI) as (H1 & H2 & H3). rewrite Hh in H1, H2, H3. cbn [fst snd] in *. split; [done|]. split; [|done].
    clear -Hd H3. revert out Hd. induction out' as [|x out' IH]; intros out Hd; [by rewrite app_nil_r|].
    rewrite cons_middle, app_assoc. apply IH; [intros t p H; apply (H3 t p); by right|].
    apply dial_ok_snoc; [done|]. intros t p ->. exfalso. apply (H3 t p). by left.
  - destruct (N.ltb_spec (pn_now n) due) as [Hdue|Hdue]; [done|]. destruct (take_one (q, due) (pn_timers n)) as [l|] eqn:Hl; [|done].
    destruct (take_one_in _ _ _ Hl) as [Hin Hrest]. pose proof HI as [Hv Ha Ht Hg Hs].
    destruct (Ht _ _ Hin) as (Hqb & Hdb & t0 & Ht0 & Heq). unfold handle_redial. cbn. intros [= Hh].
    case_bool_decide as Hc; [|rewrite bool_decide_true in Hh by done]; injection Hh as <- <-.
    + rewrite app_nil_r. split; [|done]. constructor; cbn; [done| | |done|done].
      * intros p Hp. destruct (decide (p = q)) as [->|Hne].
        { destruct (decide (q ∈ view (pn_connected n) (pn_events n))) as [Hi|Hi]; [left; by apply Hv|].
          do 4 right. left. cbn. exact (view_lost _ _ _ Hc Hi). }
        destruct (Ha p Hp) as [H|[H|[H|[[d H]|H]]]]; [by left|by right; left|by do 2 right; left| |by do 4 right].
        do 3 right. left. exists d. cbn. apply Hrest; [done|]. by intros [= -> _].
      * intros p d H. apply Ht. by eapply take_one_sub.
    + split; [|split; [|done]].
      * constructor; cbn; [done| | | |].
        -- intros p Hp. destruct (decide (p = q)) as [->|Hne].
           { do 2 right. left. cbn. apply elem_of_app. right. by left. }
           destruct (Ha p Hp) as [H|[H|[H|[[d H]|H]]]]; [by left|by right; left| | |by do 4 right].
           ++ do 2 right. left. cbn. apply elem_of_app. by left.
           ++ do 3 right. left. exists d. cbn. apply Hrest; [done|]. by intros [= -> _].
        -- intros p d H. destruct (Ht p d) as (? & ? & t & ? & ?); [by eapply take_one_sub|]. split; [done|]. split; [done|].
           exists t. split; [apply elem_of_app; by left|done].
        -- intros t p H. apply elem_of_app in H as [H|H]; [by eapply Hg|]. by apply elem_of_list_singleton in H.
        -- intros p H. destruct (Hs p H) as [t ?]. exists t. apply elem_of_app. by left.
      * apply dial_ok_snoc; [done|]. intros t p [= <- <-]. split; [done|]. exists t0. split; [done|lia].
Qed.
Lemma run_inv ops : forall n out n' out', PInv n out -> dial_ok (pn_boot n) out -> peers_run n ops = Some (n', out') ->
  PInv n' (out ++ out') /\ dial_ok (pn_boot n) (out ++ out') /\ pn_boot n' = pn_boot n.
Proof.
  induction ops as [|o ops IH]; intros n out n' out' HI Hd; cbn [peers_run].
  { intros [= <- <-]. by rewrite app_nil_r. }
  destruct (peers_step n o) as [[n1 out1]|] eqn:Hs; [|done]. destruct (peers_run n1 ops) as [[n2 out2]|] eqn:Hr; [|done].
  intros [= <- <-]. destruct (step_inv _ _ _ _ _ HI Hd Hs) as (H1 & H2 & H3). rewrite <- H3 in H2.
  destruct (IH _ _ _ _ H1 H2 Hr) as (H4 & H5 & H6). rewrite app_assoc. split; [done|]. rewrite <- H3. done.
Qed.
Lemma start_inv local boots : PInv (peers_start local boots) [].
Proof.
  constructor; cbn; [| |set_solver|set_solver|set_solver].
  - intros p. unfold conns_of. cbn. rewrite lookup_empty. cbn. split; [set_solver|lia].
  - intros p Hp. right. left. cbn. by rewrite elem_of_list_to_set in Hp.
Qed.
Lemma start_boot local boots p : p ∈ pn_boot (peers_start local boots) <-> p ∈ boots /\ p <> local.
Proof.
  cbn. rewrite elem_of_list_to_set, elem_of_list_In, filter_In, <- elem_of_list_In, negb_true_iff, N.eqb_neq. done.
Qed.
Lemma peers_inv local boots ops n out : peers_run (peers_start local boots) ops = Some (n, out) ->
  PInv n out /\ dial_ok (pn_boot (peers_start local boots)) out /\ pn_boot n = pn_boot (peers_start local boots).
Proof. intros H. apply (run_inv _ _ [] _ _ (start_inv local boots)) in H; [done|]. intros l1 t p l2 Hl. by destruct l1. Qed.

Lemma bootnodes_pf local boots ops n out p : peers_run (peers_start local boots) ops = Some (n, out) ->
  pn_events n = [] -> pn_cmds n = [] -> p ∈ boots -> p <> local ->
  p ∈ pn_connected n \/ p ∈ pn_dials n \/ exists due, (p, due) ∈ pn_timers n /\ due <= pn_now n + 12000.
Proof.
  intros Hr He Hc Hp Hl. destruct (peers_inv _ _ _ _ _ Hr) as ([Hv Ha Ht _ _] & _ & Hb).
  destruct (Ha p) as [H|[H|[H|[[d H]|[H|H]]]]].
  - rewrite Hb. by apply start_boot.
  - left. specialize (Hv p). rewrite He in Hv. by apply Hv.
  - by right; left.
  - rewrite Hc in H. by apply elem_of_nil in H.
  - do 2 right. exists d. split; [done|]. by destruct (Ht _ _ H) as (_ & ? & _).
  - rewrite He in H. by apply elem_of_nil in H.
  - rewrite He in H. by apply elem_of_nil in H.
Qed.
Lemma awaited_pf local boots ops n out p : peers_run (peers_start local boots) ops = Some (n, out) ->
  p ∈ boots -> p <> local ->
  0 < conns_of n p \/ p ∈ pn_dials n \/ p ∈ pn_cmds n \/ (exists due, (p, due) ∈ pn_timers n) \/
  CClosed p 0 ∈ pn_events n \/ CError (Some p) ∈ pn_events n.
Proof.
  intros Hr Hp Hl. destruct (peers_inv _ _ _ _ _ Hr) as ([_ Ha _ _ _] & _ & Hb). apply Ha. rewrite Hb. by apply start_boot.
Qed.
Lemma connected_pf local boots ops n out p : peers_run (peers_start local boots) ops = Some (n, out) ->
  pn_events n = [] -> (p ∈ pn_connected n <-> 0 < conns_of n p).
Proof. intros Hr He. destruct (peers_inv _ _ _ _ _ Hr) as ([Hv _ _ _ _] & _ & _). specialize (Hv p). by rewrite He in Hv. Qed.
Lemma status_pf local boots ops n out p : peers_run (peers_start local boots) ops = Some (n, out) ->
  p ∈ pn_connected n -> exists t, PStatus t p ∈ out.
Proof. intros Hr. destruct (peers_inv _ _ _ _ _ Hr) as ([_ _ _ _ Hs] & _ & _). apply Hs. Qed.
Lemma delay_pf local boots ops n l1 t p l2 : peers_run (peers_start local boots) ops = Some (n, l1 ++ PDial t p :: l2) ->
  p ∈ boots /\ p <> local /\ exists t0, PGone t0 p ∈ l1 /\ t0 + 12000 <= t.
Proof.
  intros Hr. destruct (peers_inv _ _ _ _ _ Hr) as (_ & Hd & _). destruct (Hd _ _ _ _ eq_refl) as [Hb Ht].
  apply start_boot in Hb as [? ?]. done.
Qed.

(** The example: two drops before the first redial. *)
Definition pe_ops : list PeerOp :=
  [PoDialOk 1; PoHandle; PoDrop 1; PoHandle; PoIncoming 1; PoHandle; PoDrop 1; PoHandle; PoWait 12000;
   PoTimer 1 12000; PoTimer 1 12000].
Definition pe_last : option (PeerNet * list PeerOut) := peers_run (peers_start 0 [0; 1; 2]) pe_ops.
Lemma pe_out : exists n, pe_last = Some (n, [PStatus 0 1; PGone 0 1; PStatus 0 1; PGone 0 1; PDial 12000 1; PDial 12000 1]).
Proof. eexists. vm_compute. reflexivity. Qed.
