(** Actor proofs: imports and events (C41, C52), duties (C40), aggregation
    sessions (C55, C56). *)
From Verif Require Export ActorLost.

Definition ev_blocks (cs : list ChainEvent) : list H256 :=
  omap (fun e => match e with CeBlock _ r => Some r | _ => None end) cs.
Lemma imported_events fx : imported fx = ev_blocks (chain_events fx).
Proof. induction fx as [|x fx IH]; [done|]. cbn. destruct x as [| [] | | | |]; cbn in *; unfold imported in IH; by rewrite ?IH. Qed.
Definition ev_just (c : Checkpoint) (cs : list ChainEvent) : Checkpoint :=
  fold_left (fun c x => match x with CeJustified s r _ => mkCp r s | _ => c end) cs c.
Definition ev_fin (c : Checkpoint) (cs : list ChainEvent) : Checkpoint :=
  fold_left (fun c x => match x with CeFinalized s r _ => mkCp r s | _ => c end) cs c.
Lemma heard_just_events c fx : heard_justified c fx = ev_just c (chain_events fx).
Proof. revert c. induction fx as [|x fx IH]; intros c; [done|]. destruct x as [| [] | | | |]; apply IH. Qed.
Lemma heard_fin_events c fx : heard_finalized c fx = ev_fin c (chain_events fx).
Proof. revert c. induction fx as [|x fx IH]; intros c; [done|]. destruct x as [| [] | | | |]; apply IH. Qed.
Lemma ev_blocks_app l l' : ev_blocks (l ++ l') = ev_blocks l ++ ev_blocks l'.
Proof. apply omap_app. Qed.
Lemma ev_blocks_diff d d' s : ev_blocks (diff_and_emit d d' s) = [].
Proof.
  unfold diff_and_emit. rewrite !ev_blocks_app. repeat (destruct (_ =? _)); repeat (destruct (get_header _ _));
    repeat (destruct (_ <=? _)); repeat case_bool_decide; done.
Qed.

Section Events.
  Context (E : Env) (C : Config) (gt : N) (vals : list Validator).
  Context (Hgood : good_hash (e_header E)) (Hvals : lenN vals <= VALIDATOR_REGISTRY_LIMIT).
  Notation hb := (e_body E).
  Notation root_ := (block_root (e_header E) (e_body E)).
  Notation reach := (reachable E gt vals).

  Lemma actor_reach a : actor_reachable E C gt vals a -> acyclic_hash (e_header E) -> reach (ac_node a) /\ pending_ok a.
  Proof.
    intros (n0 & tr & Hr & Hrun) [rank Hrank].
    exact (run_pending E C gt vals Hgood Hvals rank Hrank (start_actor n0) _ _ Hr (pending_start n0) Hrun).
  Qed.
  Lemma run_goes a tr a' : actor_run E C a tr a' -> goes E (ac_node a) (effects tr) (ac_node a').
  Proof.
    induction 1 as [|tr a1 W m a2 fx H IH HW Hs]; [by apply goes_refl|].
    unfold effects. rewrite map_app, concat_app. eapply goes_trans; [exact IH|]. cbn. rewrite app_nil_r.
    by eapply step_goes.
  Qed.
  Lemma actor_reach_node a : actor_reachable E C gt vals a -> reach (ac_node a).
  Proof.
    intros (n0 & tr & Hr & Hrun). apply run_goes in Hrun. exact (reach_goes E gt vals n0 _ _ Hr Hrun).
  Qed.

  (** ** Imports *)
  Lemma step_imports n e n' cs : reach n -> node_step E n e = Ok n' -> emitted E n e n' cs ->
    (ev_blocks cs = [] /\ forall r, has_state (tab n') r = has_state (tab n) r) \/
    (exists r h, ev_blocks cs = [r] /\ has_state (tab n) r = false /\ t_headers (tab n') !! r = Some h /\
       has_state (tab n) (h_parent h) = true /\
       forall x, has_state (tab n') x = true <-> x = r \/ has_state (tab n) x = true).
  Proof.
    intros Hr Hs He. destruct (reachable_inv E gt vals Hgood Hvals _ Hr) as (A & As & w & Hn & _).
    destruct (node_step_detail E gt vals Hgood Hvals _ _ _ _ _ _ Hn Hs) as (w' & Hst & _ & Hd).
    assert (forall x, has_state (tab n) x = bool_decide (is_Some (w !! x))) as S1
      by (intros x; exact (has_state_spec _ _ _ _ _ _ (di_st _ _ _ _ _ _ _ (proj1 Hn)))).
    assert (forall x, has_state (tab n') x = bool_decide (is_Some (w' !! x))) as S2
      by (intros x; exact (has_state_spec _ _ _ _ _ _ (di_st _ _ _ _ _ _ _ (proj1 (so_inv _ _ _ _ _ _ _ _ _ Hst))))).
    assert (w' = w -> ev_blocks cs = [] -> (ev_blocks cs = [] /\ forall r, has_state (tab n') r = has_state (tab n) r)) as Hsame.
    { intros -> ?. split; [done|]. intros r. by rewrite S1, S2. }
    destruct e as [sb|sb|ts hp|sa agg|sg|l keys|slot| |]; cbn in Hd, He.
    - cbn [node_step] in Hs. destruct He as [[[er Her] ->]|(Hon & s & ->)].
      { rewrite Her in Hs. cbn in Hs. injection Hs as <-. by left. }
      rewrite ev_blocks_app, ev_blocks_diff, app_nil_r in *.
      destruct (has_state (tab n) (root_ (sb_block sb))) eqn:Hh.
      + left. apply Hsame; [|done]. destruct Hd as [[-> _]|(p & post & Hnone & _)]; [done|].
        rewrite S1, Hnone in Hh. by apply bool_decide_eq_true in Hh as [].
      + right. destruct Hd as [[-> ->]|(p & post & Hnone & Hpar & Hst' & _ & Hw' & Hrows)].
        { pose proof (import_has_state E gt vals Hgood Hvals _ _ _ Hr Hon). congruence. }
        destruct Hrows as (Hhd & _). exists (root_ (sb_block sb)), (header_of hb (sb_block sb)). cbn.
        split_and!; try done.
        * by rewrite Hhd, written_headers, lookup_insert.
        * rewrite S1. apply bool_decide_eq_true. by exists p.
        * intros x. rewrite S1, S2, Hw', !bool_decide_eq_true. destruct (decide (x = root_ (sb_block sb))) as [->|Hne].
          -- rewrite lookup_insert. split; [by left|by eexists].
          -- rewrite lookup_insert_ne by done. split; [by right|]. by intros [?|?].
    - left. destruct Hd as [-> _]. apply Hsame; [done|]. by rewrite He.
    - left. destruct Hd as [-> _]. apply Hsame; [done|]. destruct He as [s ->]. apply ev_blocks_diff.
    - left. destruct Hd as [-> _]. apply Hsame; [done|]. by rewrite He.
    - left. destruct Hd as [-> _]. apply Hsame; [done|]. by rewrite He.
    - left. destruct Hd as [-> _]. apply Hsame; [done|]. by rewrite He.
    - left. destruct Hd as [-> _]. apply Hsame; [done|]. destruct He as [s ->]. apply ev_blocks_diff.
    - left. destruct Hd as [-> _]. apply Hsame; [done|]. by rewrite He.
    - done.
  Qed.

  Lemma traced_imports n tr n' : reach n -> traced E n tr n' ->
    let l := ev_blocks (concat (map snd tr)) in
    NoDup l /\ (forall r, r ∈ l <-> has_state (tab n') r = true /\ has_state (tab n) r = false) /\
    (forall i r, l !! i = Some r -> exists h, t_headers (tab n') !! r = Some h /\
       (has_state (tab n) (h_parent h) = true \/ exists j, (j < i)%nat /\ l !! j = Some (h_parent h))).
  Proof.
    intros Hr Ht. induction Ht as [n|n e cs n1 tr n2 Hs He Ht IH].
    { cbn. split_and!; [constructor| |by intros]. intros r. split; [by intros ?%elem_of_nil|]. intros [? ?]. congruence. }
    assert (reach n1) as Hr1 by (eapply (reach_run E gt vals); [exact Hr|by apply run_one]).
    specialize (IH Hr1). cbn [map concat snd]. rewrite ev_blocks_app. set (l := ev_blocks (concat (map snd tr))) in *.
    destruct IH as (I1 & I2 & I3).
    destruct (step_imports _ _ _ _ Hr Hs He) as [[-> Hsame]|(r & h & -> & Hno & Hh & Hp & Hiff)].
    - cbn [app]. split_and!; [done| |].
      + intros r. rewrite I2, Hsame. done.
      + intros i r Hi. destruct (I3 _ _ Hi) as (h & Hh & Hc). exists h. split; [done|]. by rewrite <- Hsame.
    - apply traced_run in Ht as Hrun. destruct (run_mono E gt vals Hgood Hvals _ _ _ Hr1 Hrun) as [Hg Hm].
      cbn [app]. assert (has_state (tab n1) r = true) as Hr1s by (apply Hiff; by left).
      split_and!.
      + constructor; [|done]. intros Hin. apply I2 in Hin as [_ Hin]. congruence.
      + intros x. rewrite elem_of_cons, I2. split.
        * intros [->|[H1 H2]]; [split; [by apply Hm|done]|]. split; [done|].
          destruct (has_state (tab n) x) eqn:Hx; [|done]. rewrite (proj2 (Hiff x)) in H2 by (by right). done.
        * intros [H1 H2]. destruct (decide (x = r)) as [->|Hne]; [by left|right]. split; [done|].
          destruct (has_state (tab n1) x) eqn:Hx; [|done]. apply Hiff in Hx as [?|?]; [done|congruence].
      + intros [|i] x Hi; cbn in Hi.
        * injection Hi as <-. exists h. split; [by apply Hg|by left].
        * destruct (I3 _ _ Hi) as (h' & Hh' & Hc). exists h'. split; [done|].
          destruct Hc as [Hc|(j & Hj & Hc)].
          -- apply Hiff in Hc as [->|Hc]; [right; exists 0%nat; split; [lia|done]|by left].
          -- right. exists (S j). split; [lia|done].
  Qed.

  (** ** Checkpoint events *)
  Lemma ev_just_app c l l' : ev_just c (l ++ l') = ev_just (ev_just c l) l'.
  Proof. apply fold_left_app. Qed.
  Lemma ev_fin_app c l l' : ev_fin c (l ++ l') = ev_fin (ev_fin c l) l'.
  Proof. apply fold_left_app. Qed.
  Lemma diff_heard d d' s :
    is_Some (t_headers (db_tab d') !! cp_root (db_just d')) -> is_Some (t_headers (db_tab d') !! cp_root (db_fin d')) ->
    ev_just (db_just d) (diff_and_emit d d' s) = db_just d' /\ ev_fin (db_fin d) (diff_and_emit d d' s) = db_fin d'.
  Proof.
    intros [hj Hj] [hf Hf]. unfold diff_and_emit, get_header. rewrite Hj, Hf. rewrite !ev_just_app, !ev_fin_app.
    assert (forall c, ev_just c (if db_head d' =? db_head d then [] else
       match t_headers (db_tab d') !! db_head d' with
       | Some h => if s <=? h_slot h + HEAD_EVENT_RECENCY_SLOTS then [CeHead (h_slot h) (db_head d') (h_state_root h)] else []
       | None => [] end) = c) as H1.
    { intros c. clear. destruct (_ =? _); [done|]. destruct (t_headers (db_tab d') !! db_head d') as [h|]; [|done]. by destruct (s <=? _). }
    assert (forall c, ev_fin c (if db_head d' =? db_head d then [] else
       match t_headers (db_tab d') !! db_head d' with
       | Some h => if s <=? h_slot h + HEAD_EVENT_RECENCY_SLOTS then [CeHead (h_slot h) (db_head d') (h_state_root h)] else []
       | None => [] end) = c) as H2.
    { intros c. clear. destruct (_ =? _); [done|]. destruct (t_headers (db_tab d') !! db_head d') as [h|]; [|done]. by destruct (s <=? _). }
    rewrite H1, H2. split.
    - case_bool_decide as Hd; [cbn; case_bool_decide; cbn; congruence|]. cbn. case_bool_decide; by destruct (db_just d').
    - case_bool_decide as Hd; cbn; (case_bool_decide; cbn; [congruence|by destruct (db_fin d')]).
  Qed.

  Lemma step_heard n e n' cs : reach n -> node_step E n e = Ok n' -> emitted E n e n' cs ->
    ev_just (db_just (nd_db n)) cs = db_just (nd_db n') /\ ev_fin (db_fin (nd_db n)) cs = db_fin (nd_db n').
  Proof.
    intros Hr Hs He. assert (reach n') as Hr' by (eapply (reach_run E gt vals); [exact Hr|by apply run_one]).
    destruct (reachable_inv E gt vals Hgood Hvals _ Hr) as (A & As & w & Hn & _).
    destruct (reachable_inv E gt vals Hgood Hvals _ Hr') as (A' & As' & w' & [Hi' _] & _).
    assert (forall s, ev_just (db_just (nd_db n)) (diff_and_emit (nd_db n) (nd_db n') s) = db_just (nd_db n') /\
                      ev_fin (db_fin (nd_db n)) (diff_and_emit (nd_db n) (nd_db n') s) = db_fin (nd_db n')) as Hd.
    { intros s. apply diff_heard.
      - destruct (di_just _ _ _ _ _ _ _ Hi') as (sj & Hj & _). destruct (w_header _ _ _ _ _ _ _ _ _ Hi' Hj) as (-> & _). by eexists.
      - destruct (di_fin _ _ _ _ _ _ _ Hi') as (sj & Hj & _). destruct (w_header _ _ _ _ _ _ _ _ _ Hi' Hj) as (-> & _). by eexists. }
    destruct e as [sb|sb|ts hp|sa agg|sg|l keys|slot| |]; cbn in He; cbn [node_step] in Hs.
    - destruct He as [[[er Her] ->]|(Hon & s & ->)].
      { rewrite Her in Hs. cbn in Hs. by injection Hs as <-. }
      rewrite ev_just_app, ev_fin_app. destruct (has_state _ _); apply Hd.
    - rewrite He. destruct (pends n (sb_block sb)); by injection Hs as <-.
    - destruct He as [s ->]. apply Hd.
    - rewrite He. apply keep_Ok in Hs as [Hs|[_ ->]]; [|done].
      destruct (attestation_step E gt vals _ _ _ _ _ _ _ Hn Hs) as [_ ->]. done.
    - rewrite He. apply keep_Ok in Hs as [Hs|[_ ->]]; [|done].
      destruct (aggregate_step E gt vals _ _ _ _ _ _ Hn Hs) as [_ ->]. done.
    - rewrite He. apply rbind_Ok in Hs as (n1 & H1 & Hs). apply rbind_Ok in Hs as (g & _ & Hs). injection Hs as <-.
      cbn [nd_db]. by rewrite (batch_db E _ _ _ H1).
    - destruct He as [s ->]. apply Hd.
    - rewrite He. apply rbind_Ok in Hs as (d & H1 & Hs). injection Hs as <-. unfold prune_old_data in H1.
      destruct (get_header _ _); [|done]. by injection H1 as <-.
    - done.
  Qed.
  Lemma traced_heard n tr n' : reach n -> traced E n tr n' ->
    ev_just (db_just (nd_db n)) (concat (map snd tr)) = db_just (nd_db n') /\
    ev_fin (db_fin (nd_db n)) (concat (map snd tr)) = db_fin (nd_db n').
  Proof.
    intros Hr Ht. induction Ht as [n|n e cs n1 tr n2 Hs He Ht IH]; [done|].
    assert (reach n1) as Hr1 by (eapply (reach_run E gt vals); [exact Hr|by apply run_one]).
    destruct (IH Hr1) as [I1 I2]. destruct (step_heard _ _ _ _ Hr Hs He) as [S1 S2].
    cbn [map concat snd]. by rewrite ev_just_app, ev_fin_app, S1, S2.
  Qed.

  Lemma C41_once_pf a tr a' : actor_reachable E C gt vals a -> actor_run E C a tr a' ->
    let l := imported (effects tr) in
    NoDup l /\
    (forall r, r ∈ l <-> has_state (tab (ac_node a')) r = true /\ has_state (tab (ac_node a)) r = false) /\
    (forall i r, l !! i = Some r -> exists h, t_headers (tab (ac_node a')) !! r = Some h /\
       (has_state (tab (ac_node a)) (h_parent h) = true \/ exists j, (j < i)%nat /\ l !! j = Some (h_parent h))).
  Proof.
    intros Ha Hrun. apply actor_reach_node in Ha. apply run_goes in Hrun as (t & Ht & Hc).
    rewrite imported_events, Hc. by apply traced_imports.
  Qed.
  Lemma C52_heard_pf a tr a' : actor_reachable E C gt vals a -> actor_run E C a tr a' ->
    heard_justified (db_just (nd_db (ac_node a))) (effects tr) = db_just (nd_db (ac_node a')) /\
    heard_finalized (db_fin (nd_db (ac_node a))) (effects tr) = db_fin (nd_db (ac_node a')).
  Proof.
    intros Ha Hrun. apply actor_reach_node in Ha. apply run_goes in Hrun as (t & Ht & Hc).
    rewrite heard_just_events, heard_fin_events, Hc. by apply traced_heard.
  Qed.
End Events.
