From Coq Require Import Ascii String.
From Verif Require Import BusProofs.
From Verif Require Export BusSpec.
Local Open Scope N_scope.

Section Thms.
  Context (json : ChainEvent -> option string).
  Notation run := (bus_run json).
  Notation step := (bus_step json).

  Lemma C71_query_pf b q : bs_closed b = false ->
    ((exists c b', step b (OConnect q) = (b', [SOpened c])) <->
     exists T, T <> [] /\ q = Some (comma_list (map topic_str T))) /\
    ((~ exists T, T <> [] /\ q = Some (comma_list (map topic_str T))) -> step b (OConnect q) = (b, [SRefused])).
  Proof.
    intros Hcl. cbn [bus_step]. rewrite Hcl. destruct (parse_topics q) as [ts|] eqn:Hp.
    - apply parse_topics_spec in Hp. split; [|intros H; exfalso; eauto]. split; [by eauto|]. intros _. eauto.
    - assert (Hn : ~ exists T, T <> [] /\ q = Some (comma_list (map topic_str T))).
      { intros (T & HT). apply parse_topics_spec in HT. congruence. }
      split; [|done]. split; [|done]. by intros (c & b' & ?).
  Qed.
  Lemma C71_stream_pf cap b T c b1 ops : bus_reachable json cap b -> opened json b T c b1 ->
    exists read unread, emitted ops = (read ++ unread)%list /\ shows json T read (frames_of c (run b1 ops).2).
  Proof.
    intros [Hi Hc]%reachable_inv Ho. destruct (opened_attached json T c _ _ _ Hi Hc Ho) as (Hi1 & Hc1 & Ha).
    pose proof (conn_run json T c _ b1 ops Hi1 Hc1 Ha) as Hr. destruct (run b1 ops) as [b2 seen]. cbn [snd].
    destruct Hr as [(r & u & (S0 & H1 & H2 & _) & _)|(r & u & H1 & H2 & _)]; eauto.
  Qed.
  Lemma C71_complete_pf cap b T c b1 p m : bus_reachable json cap b -> opened json b T c b1 ->
    stays c (p ++ m) -> emitted (p ++ m) = emitted p -> lenN (emitted p) <= reads c m ->
    shows json T (emitted p) (frames_of c (run b1 (p ++ m)).2).
  Proof.
    intros [Hi Hc]%reachable_inv Ho Hst He Hn. destruct (opened_attached json T c _ _ _ Hi Hc Ho) as (Hi1 & Hc1 & Ha).
    pose proof (complete_run json T c _ b1 p m Hi1 Hc1 Ha Hst He) as Hr. destruct (run b1 (p ++ m)) as [b2 seen]. cbn [snd].
    destruct Hr as [(r & u & (S0 & H1 & H2 & _) & Hu)|(r & H1 & H2 & _)].
    - assert (u = []) as ->. { destruct u; [done|]. unfold lenN in Hu, Hn. cbn [length] in Hu. lia. }
      by rewrite <- He, H1, app_nil_r.
    - by rewrite <- He, H1, app_nil_r.
  Qed.
  Lemma C71_dropped_pf cap b T c b1 ops b3 n : bus_reachable json cap b -> opened json b T c b1 ->
    step (run b1 ops).1 (ORead c) = (b3, [SFrame c (FDropped n)]) ->
    0 < n /\ exists read unread, emitted ops = (read ++ unread)%list /\ shows json T read (frames_of c (run b1 ops).2) /\
      lenN unread = 2 ^ N.log2_up cap + n.
  Proof.
    intros [Hi Hc]%reachable_inv Ho Hs. destruct (opened_attached json T c _ _ _ Hi Hc Ho) as (Hi1 & Hc1 & Ha).
    pose proof (conn_run json T c _ b1 ops Hi1 Hc1 Ha) as Hr. destruct (inv_run json b1 ops Hi1) as [Hi2 Hc2].
    rewrite Hc1 in Hc2. destruct (run b1 ops) as [b2 seen]. cbn [fst snd] in *.
    destruct Hr as [(r & u & Hat & _)|(r & u & Hg)].
    - pose proof (attached_read json T c _ b2 ops [] _ r u Hi2 Hc2 Hat) as Hr. cbv zeta in Hr.
      rewrite Hs in Hr. cbn [fst snd] in Hr. destruct Hat as (S0 & H1 & H2 & _).
      destruct u as [|e u]; [destruct (shut ops); by destruct Hr as [_ ?]|].
      destruct (N.leb_spec (lenN (e :: u)) (2 ^ N.log2_up cap)) as [Hl|Hl].
      + destruct Hr as [_ Hr]. unfold shown in Hr. cbn [omap list_omap] in Hr. destruct (decide _); [|done]. by destruct (json e).
      + destruct Hr as [_ [= Hr]]. split; [lia|]. exists r, (e :: u). split_and!; [done..|]. lia.
    - exfalso. destruct Hg as (_ & _ & Hno & _). cbn [bus_step] in Hs. unfold read_once in Hs. by rewrite Hno in Hs.
  Qed.
  Lemma C71_keeps_up_pf cap b T c b1 ops : bus_reachable json cap b -> opened json b T c b1 -> stays c ops ->
    (forall p m s, ops = (p ++ m ++ s)%list -> lenN (emitted m) <= reads c m + 2 ^ N.log2_up cap) ->
    exists read unread, emitted ops = (read ++ unread)%list /\ frames_of c (run b1 ops).2 = shown json T read /\
      lenN unread <= 2 ^ N.log2_up cap.
  Proof.
    intros [Hi Hc]%reachable_inv Ho Hst Hb. destruct (opened_attached json T c _ _ _ Hi Hc Ho) as (Hi1 & Hc1 & Ha).
    pose proof (keeps_run json T c _ b1 ops Hi1 Hc1 Ha Hst Hb) as Hr. destruct (run b1 ops) as [b2 seen]. cbn [snd].
    destruct Hr as [(r & u & (S0 & H1 & _) & H2 & p & m & Heq & Hu)|(r & (H1 & _) & H2 & _)].
    - exists r, u. split_and!; [done..|]. specialize (Hb p m [] ltac:(by rewrite app_nil_r)). lia.
    - exists r, []. split_and!; [done..|]. unfold lenN. cbn [length]. lia.
  Qed.
  Lemma C71_end_pf cap b T c b1 ops : bus_reachable json cap b -> opened json b T c b1 ->
    SEnd c ∈ (run b1 ops).2 -> OShutdown ∈ ops /\ shows json T (emitted ops) (frames_of c (run b1 ops).2).
  Proof.
    intros [Hi Hc]%reachable_inv Ho Hs. destruct (opened_attached json T c _ _ _ Hi Hc Ho) as (Hi1 & Hc1 & Ha).
    pose proof (conn_run json T c _ b1 ops Hi1 Hc1 Ha) as Hr. destruct (run b1 ops) as [b2 seen]. cbn [snd] in *.
    destruct Hr as [(r & u & _ & ?)|(r & u & H1 & H2 & _ & _ & Hq)]; [done|].
    destruct (Hq (or_intror Hs)) as [Hsh ->]. rewrite app_nil_r in H1. rewrite H1. split; [by apply shut_in|done].
  Qed.

  (** Two buses the connection cannot tell apart. *)
  Definition alike (c : N) (b b' : Bus) : Prop :=
    bs_capacity b = bs_capacity b' /\ bs_kept b = bs_kept b' /\ bs_tail b = bs_tail b' /\
    bs_count b = bs_count b' /\ bs_closed b = bs_closed b' /\ bs_conns b !! c = bs_conns b' !! c /\
    c < bs_count b /\ (bs_conns b !! c <> None \/ bs_closed b = true).
  Lemma alike_same c b b' o : alike c b b' -> o <> ODisconnect c -> (forall d, o = ORead d -> d = c) ->
    alike c (step b o).1 (step b' o).1 /\ frames_of c (step b o).2 = frames_of c (step b' o).2.
  Proof.
    intros Hal Ho Hr. pose proof Hal as (H1 & H2 & H3 & H4 & H5 & H6 & H7 & H8). destruct o as [q|e|d|d|]; cbn [bus_step].
    - rewrite <- H5. destruct (bs_closed b) eqn:Hcl; [by split|].
      destruct (parse_topics q) as [ts|]; [|by split].
      cbn. split; [|done]. unfold alike. cbn. rewrite H1, H2, H3, H4, !lookup_insert_ne by lia. rewrite <- H6. split_and!; try done; try lia; try (left; by destruct H8).
    - rewrite <- H5. destruct (bs_closed b) eqn:Hcl; cbn [orb]; [by split|].
      destruct H8 as [H8|]; [|done].
      rewrite !bool_decide_false; [|intros H0; rewrite H0, lookup_empty in H6; congruence|intros H0; by rewrite H0, lookup_empty in H8].
      cbn. split; [|done]. unfold alike. cbn. rewrite <- H1, H2, H3, H4. split_and!; try done; try lia; by left.
    - assert (d = c) as -> by by apply Hr. unfold read_once. rewrite <- H6. destruct (bs_conns b !! c) as [rx|] eqn:Hc.
      2:{ by split. }
      assert (recv b' (rx_next rx) = recv b (rx_next rx)) as -> by (unfold recv; by rewrite <- H2, <- H3, <- H5).
      destruct (recv b (rx_next rx)) as [next r] eqn:Hrecv.
      assert (Hi : forall rx', alike c (set_conns b (<[c := rx']> (bs_conns b))) (set_conns b' (<[c := rx']> (bs_conns b')))).
      { intros rx'. unfold alike. cbn. rewrite !lookup_insert. split_and!; try done. by left. }
      destruct r as [e|n| |].
      + destruct (bool_decide _); [split; [apply Hi|done]|]. destruct (json e); (split; [apply Hi|done]).
      + split; [apply Hi|done].
      + split; [|done]. unfold alike. cbn. rewrite !lookup_delete. split_and!; try done. right.
        unfold recv in Hrecv. destruct (_ <? _); [done|]. destruct (getN _ _); [done|]. destruct (bs_closed b); [done|]. by injection Hrecv.
      + by split.
    - assert (d <> c) by (intros ->; done). cbn. split; [|done]. unfold alike. cbn. rewrite !lookup_delete_ne by done. by split_and!.
    - cbn. split; [|done]. unfold alike. cbn. split_and!; try done. by right.
  Qed.
  Lemma alike_others c b b' d : alike c b b' -> d <> c ->
    (alike c (step b (ORead d)).1 b' /\ frames_of c (step b (ORead d)).2 = []) /\
    (alike c (step b (ODisconnect d)).1 b' /\ frames_of c (step b (ODisconnect d)).2 = []).
  Proof.
    intros H Hne. pose proof H as (H1 & H2 & H3 & H4 & H5 & H6 & H7 & H8). split; cbn [bus_step].
    - unfold read_once. destruct (bs_conns b !! d) as [rx|] eqn:Hd; [|done].
      destruct (recv b (rx_next rx)) as [next r].
      assert (Hi : forall rx', alike c (set_conns b (<[d := rx']> (bs_conns b))) b').
      { intros rx'. unfold alike. cbn. rewrite lookup_insert_ne by done. by split_and!. }
      assert (Hf : forall f, frames_of c [SFrame d f] = []) by (intros f; cbn [frames_of]; by rewrite decide_False).
      destruct r as [e|n| |].
      + destruct (bool_decide _); [split; [apply Hi|done]|]. destruct (json e); split; [apply Hi|apply Hf|apply Hi|done].
      + split; [apply Hi|apply Hf].
      + split; [|done]. unfold alike. cbn. rewrite lookup_delete_ne by done. by split_and!.
      + done.
    - split; [|done]. unfold alike. cbn. rewrite lookup_delete_ne by done. by split_and!.
  Qed.
  Lemma C71_independent_pf cap b T c b1 ops : bus_reachable json cap b -> opened json b T c b1 -> stays c ops ->
    frames_of c (run b1 ops).2 = frames_of c (run b1 (without_others c ops)).2.
  Proof.
    intros [Hi Hc]%reachable_inv Ho Hst. destruct (opened_attached json T c _ _ _ Hi Hc Ho) as ((_ & _ & Hn) & Hc1 & Ha).
    assert (Hal : alike c b1 b1).
    { destruct Ha as (S0 & _ & _ & _ & _ & Ha & _). unfold alike. split_and!; try done; [by apply Hn in Ha|]. left. by rewrite Ha. }
    clear Ha Hn. generalize dependent Hal. clear Ho Hi Hc Hc1.
    assert (Hgen : forall ops b1 b2, stays c ops -> alike c b1 b2 ->
      frames_of c (run b1 ops).2 = frames_of c (run b2 (without_others c ops)).2); [|by intros; apply Hgen].
    clear. intros ops. induction ops as [|o ops IH]; intros b1 b2 Hst Hal; [done|].
    assert (Hst' : stays c ops) by (unfold stays in *; rewrite elem_of_cons in Hst; tauto).
    assert (Ho : o <> ODisconnect c) by (intros ->; apply Hst; left).
    assert (Hsame : (forall d, o = ORead d -> d = c) -> 
      frames_of c (run b1 (o :: ops)).2 = frames_of c (run b2 (o :: without_others c ops)).2).
    { intros Hd. destruct (alike_same c b1 b2 o Hal Ho Hd) as [Ha Hf]. cbn [bus_run].
      destruct (step b1 o) as [b1' s1], (step b2 o) as [b2' s2]. cbn [fst snd] in *. specialize (IH b1' b2' Hst' Ha).
      destruct (run b1' ops), (run b2' (without_others c ops)). cbn [fst snd] in *. by rewrite !frames_app, Hf, IH. }
    destruct o as [q|e|d|d|]; try by apply Hsame.
    - unfold without_others. cbn [List.filter]. destruct (N.eqb_spec d c) as [->|Hne]; [apply Hsame; congruence|].
      destruct (alike_others c b1 b2 d Hal Hne) as [[Ha Hf] _]. cbn [bus_run].
      destruct (step b1 (ORead d)) as [b1' s1]. cbn [fst snd] in *. specialize (IH b1' b2 Hst' Ha).
      destruct (run b1' ops). cbn [fst snd] in *. by rewrite frames_app, Hf, IH.
    - unfold without_others. cbn [List.filter]. destruct (N.eqb_spec d c) as [->|Hne]; [done|].
      destruct (alike_others c b1 b2 d Hal Hne) as [_ [Ha Hf]]. cbn [bus_run].
      destruct (step b1 (ODisconnect d)) as [b1' s1]. cbn [fst snd] in *. specialize (IH b1' b2 Hst' Ha).
      destruct (run b1' ops). cbn [fst snd] in *. by rewrite frames_app, Hf, IH.
  Qed.
End Thms.
