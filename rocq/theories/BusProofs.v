From Coq Require Import Ascii String.
From Verif Require Import ActorAll BusSpec GossipProofs.
Local Open Scope N_scope.

(** ** The query *)
Lemma topic_no_comma t : without "," (topic_str t) = true.
Proof. by destruct t. Qed.
Lemma split_alone c s : without c s = true -> split_on c s = [s].
Proof.
  induction s as [|a s IH]; [done|]. cbn [without split_on]. intros [H1 H2]%andb_true_iff.
  destruct (Ascii.eqb a c); [done|]. by rewrite IH.
Qed.
Lemma split_comma_list l : l <> [] -> Forall (fun s => without "," s = true) l -> split_on "," (comma_list l) = l.
Proof.
  induction l as [|s l IH]; [done|]. intros _ [Hs Hl]%Forall_cons.
  destruct l as [|s' l]; [by apply split_alone|].
  change (comma_list (s :: s' :: l)) with (s +:+ String "," (comma_list (s' :: l))).
  rewrite split_app by done. f_equal. by apply IH.
Qed.
Lemma join_split s : comma_list (split_on "," s) = s.
Proof.
  induction s as [|a s IH]; [done|]. cbn [split_on].
  destruct (split_on "," s) as [|x xs] eqn:Hx.
  { destruct s as [|b s]; [done|]. cbn [split_on] in Hx. destruct (Ascii.eqb b ","); [done|]. by destruct (split_on "," s). }
  destruct (Ascii.eqb_spec a ",") as [->|Hn].
  - change (comma_list ("" :: x :: xs)) with (String "," (comma_list (x :: xs))). by rewrite IH.
  - destruct xs as [|y ys].
    + cbn [comma_list] in *. by rewrite IH.
    + change (comma_list (String a x :: y :: ys)) with (String a (comma_list (x :: y :: ys))). by rewrite IH.
Qed.
Lemma parse_all_spec l ts : parse_all l = Some ts <-> l = map topic_str ts.
Proof.
  revert ts; induction l as [|s l IH]; intros ts; cbn [parse_all].
  - split; [by intros [= <-]|]. by destruct ts.
  - split.
    + destruct (topic_of_str s) as [t|] eqn:Ht; [|done]. destruct (parse_all l) as [us|] eqn:Hu; [|done].
      intros [= <-]. cbn [map]. f_equal; [by apply C52_topics_pf in Ht|]. by apply IH.
    + destruct ts as [|t ts]; [done|]. cbn [map]. intros [= -> Hl].
      rewrite (proj2 (C52_topics_pf _ t) eq_refl). by rewrite (proj2 (IH ts) Hl).
Qed.
Lemma split_not_nil c s : split_on c s <> [].
Proof. destruct s as [|a s]; [done|]. cbn [split_on]. destruct (Ascii.eqb a c); [done|]. by destruct (split_on c s). Qed.
Lemma parse_topics_spec q ts : parse_topics q = Some ts <-> ts <> [] /\ q = Some (comma_list (map topic_str ts)).
Proof.
  split.
  - destruct q as [s|]; [|done]. destruct s as [|a s]; [done|]. cbn [parse_topics]. intros H.
    apply parse_all_spec in H. split.
    + intros ->. by apply split_not_nil in H.
    + by rewrite <- H, join_split.
  - intros [Hn ->]. destruct (comma_list (map topic_str ts)) as [|a s] eqn:Hs.
    + exfalso. destruct ts as [|t ts]; [done|]. cbn [map] in Hs. destruct ts; by destruct t.
    + cbn [parse_topics]. apply parse_all_spec. rewrite <- Hs. apply split_comma_list.
      * by destruct ts.
      * apply Forall_forall. intros x (t & -> & _)%elem_of_list_fmap. apply topic_no_comma.
Qed.

(** ** The kept events *)
Lemma keep_last_length {A} c (l : list A) : lenN (keep_last c l) = N.min c (lenN l).
Proof. unfold keep_last, lenN. rewrite drop_length. lia. Qed.
Lemma keep_last_snoc {A} c (l : list A) x : keep_last c (keep_last c l ++ [x]) = keep_last c (l ++ [x]).
Proof.
  unfold keep_last, lenN. rewrite !app_length, drop_length. cbn [length].
  destruct (decide (N.of_nat (length l) < c)) as [H|H].
  - assert (N.of_nat (length l) - c = 0) as -> by lia. change (N.to_nat 0) with 0%nat. cbn [drop].
    f_equal. lia.
  - set (k := N.to_nat (N.of_nat (length l) - c)).
    assert (Hk : drop k l ++ [x] = drop k (l ++ [x])) by (rewrite drop_app_le by (subst k; lia); done).
    rewrite Hk, drop_drop. f_equal. subst k. lia.
Qed.
Lemma getN_keep {A} c (l : list A) i : lenN l - c <= i -> getN (keep_last c l) (i - (lenN l - c)) = getN l i.
Proof.
  intros H. rewrite !getN_lookup. unfold keep_last. rewrite lookup_drop.
  assert (N.to_nat (lenN l - c) + N.to_nat (i - (lenN l - c)) = N.to_nat i)%nat as -> by lia. done.
Qed.

Section Stream.
  Context (json : ChainEvent -> option string).
  Notation shows := (shows json).
  Notation step := (bus_step json).
  Notation run := (bus_run json).

  Lemma run_app b l1 l2 : run b (l1 ++ l2) = ((run (run b l1).1 l2).1, ((run b l1).2 ++ (run (run b l1).1 l2).2)%list).
  Proof.
    revert b; induction l1 as [|o l1 IH]; intros b; cbn [bus_run app fst snd].
    - by destruct (run b l2).
    - destruct (step b o) as [b1 s1]. rewrite IH. destruct (run b1 l1) as [b2 s2]. cbn [fst snd].
      destruct (run b2 l2) as [b3 s3]. cbn [fst snd]. by rewrite app_assoc.
  Qed.
  Lemma run_one b o : run b [o] = step b o.
  Proof. cbn [bus_run]. destruct (step b o) as [b' s]. by rewrite app_nil_r. Qed.
  Lemma run_snoc b l o : run b (l ++ [o]) = ((step (run b l).1 o).1, ((run b l).2 ++ (step (run b l).1 o).2)%list).
  Proof. by rewrite run_app, run_one. Qed.

  Lemma shows_app T l1 l2 f1 f2 : shows T l1 f1 -> shows T l2 f2 -> shows T (l1 ++ l2) (f1 ++ f2).
  Proof.
    induction 1 as [|e l fs H _ IH|e l fs H _ IH|e j l fs H Hj _ IH|gap l fs H _ IH]; intros H2; cbn [app].
    - done.
    - by apply sh_other, IH.
    - by apply sh_bad, IH.
    - apply sh_event; [done..|by apply IH].
    - rewrite <- app_assoc. apply sh_dropped; [done|by apply IH].
  Qed.
  Lemma frames_app c l1 l2 : frames_of c (l1 ++ l2) = (frames_of c l1 ++ frames_of c l2)%list.
  Proof.
    induction l1 as [|s l1 IH]; [done|]. destruct s as [| |c' f|]; cbn [app frames_of]; try done.
    destruct (decide (c' = c)); [|done]. cbn [app]. by rewrite IH.
  Qed.
  Definition shut (ops : list BusOp) : bool := existsb (fun o => match o with OShutdown => true | _ => false end) ops.
  Lemma shut_in ops : shut ops = true <-> OShutdown ∈ ops.
  Proof.
    unfold shut. rewrite existsb_exists. split.
    - intros (o & Ho & H). destruct o; try done. by apply elem_of_list_In.
    - intros H. exists OShutdown. split; [by apply elem_of_list_In|done].
  Qed.
  Lemma emitted_snoc ops o : emitted (ops ++ [o]) =
    if shut ops then emitted ops else (emitted ops ++ match o with OEmit e => [e] | _ => [] end)%list.
  Proof.
    induction ops as [|x ops IH]; [by destruct o|].
    unfold shut in *. destruct x as [q|e|c|c|]; cbn [app emitted existsb orb]; rewrite ?IH; try done.
    by destruct (existsb _ ops).
  Qed.
  Lemma shut_snoc ops o : shut (ops ++ [o]) = shut ops || match o with OShutdown => true | _ => false end.
  Proof. unfold shut. rewrite existsb_app. cbn [existsb]. by rewrite orb_false_r. Qed.

  (** *** Any history *)
  Definition bus_inv (b : Bus) : Prop :=
    1 <= bs_capacity b /\
    (exists S, bs_tail b = lenN S /\ bs_kept b = keep_last (bs_capacity b) S) /\
    (forall c rx, bs_conns b !! c = Some rx -> c < bs_count b).
  Lemma inv_step b o : bus_inv b -> bus_inv (step b o).1 /\ bs_capacity (step b o).1 = bs_capacity b /\ bs_count b <= bs_count (step b o).1.
  Proof.
    intros (Hc & (S & Ht & Hk) & Hn). destruct o as [q|e|c|c|]; cbn [bus_step].
    - destruct (bs_closed b) eqn:Hcl; [split_and!; [split_and!; eauto|done|cbn; lia]|].
      destruct (parse_topics q) as [ts|]; [|split_and!; [split_and!; eauto|done|cbn; lia]].
      cbn. split_and!; [split_and!|done|cbn; lia]; [done|by exists S|].
      intros c rx. cbn. destruct (decide (c = bs_count b)) as [->|Hne].
      + intros _. lia.
      + rewrite lookup_insert_ne by done. intros H%Hn. lia.
    - destruct (bs_closed b || bool_decide (bs_conns b = ∅)) eqn:Hcl; [split_and!; [split_and!; eauto|done|cbn; lia]|].
      cbn. split_and!; [split_and!|done|cbn; lia]; [done| |done]. exists (S ++ [e]). cbn. split.
      + rewrite Ht. unfold lenN. rewrite app_length. cbn. lia.
      + rewrite Hk. apply keep_last_snoc.
    - unfold read_once. destruct (bs_conns b !! c) as [rx|] eqn:Hrx; [|split_and!; [split_and!; eauto|done|cbn; lia]].
      destruct (recv b (rx_next rx)) as [next r].
      assert (Hi : forall rx' : Rx, bus_inv (set_conns b (<[c := rx']> (bs_conns b)))).
      { intros rx'. split_and!; [done|by exists S|]. cbn. intros c' rx''.
        destruct (decide (c' = c)) as [->|Hne]; [|rewrite lookup_insert_ne by done; by intros H%Hn].
        intros _. by apply Hn in Hrx. }
      destruct r as [e|n| |].
      + destruct (bool_decide _); [split_and!; [apply Hi|done|cbn; lia]|].
        destruct (json e); (split_and!; [apply Hi|done|cbn; lia]).
      + split_and!; [apply Hi|done|cbn; lia].
      + split_and!; [split_and!; [done|by exists S|]|done|cbn; lia]. cbn. intros c' rx' [_ H]%lookup_delete_Some. by apply Hn in H.
      + split_and!; [split_and!; eauto|done|cbn; lia].
    - split_and!; [split_and!; [done|by exists S|]|done|cbn; lia]. cbn. intros c' rx' [_ H]%lookup_delete_Some. by apply Hn in H.
    - split_and!; [split_and!; [done|by exists S|done]|done|cbn; lia].
  Qed.
  Lemma inv_run b ops : bus_inv b -> bus_inv (run b ops).1 /\ bs_capacity (run b ops).1 = bs_capacity b.
  Proof.
    intros Hb. induction ops as [|o ops IH] using rev_ind; [done|]. rewrite run_snoc. cbn [fst].
    destruct IH as [IH1 IH2]. destruct (inv_step _ o IH1) as (H1 & H2 & _). split; [done|]. by rewrite H2.
  Qed.
  Lemma reachable_inv cap b : bus_reachable json cap b -> bus_inv b /\ bs_capacity b = 2 ^ N.log2_up cap.
  Proof.
    intros (b0 & pre & H0 & <-). unfold new_bus in H0. destruct (N.eqb_spec cap 0) as [|Hc]; [done|].
    injection H0 as <-. destruct (inv_run (mkBus (2 ^ N.log2_up cap) [] 0 ∅ 0 false) pre) as [H1 H2].
    - split_and!; cbn.
      + pose proof (N.pow_nonzero 2 (N.log2_up cap)). lia.
      + by exists [].
      + by intros c rx H.
    - split; [done|]. by rewrite H2.
  Qed.

  (** *** One connection *)
  Section Conn.
    Context (T : list Topic) (c : N) (cap : N).
    (** The state of the connection after [ops]. *)
    Definition attached (b : Bus) (ops : list BusOp) (fs : list Frame) (read unread : list ChainEvent) : Prop :=
      exists S0, emitted ops = (read ++ unread)%list /\ shows T read fs /\
        bs_tail b = lenN (S0 ++ read ++ unread) /\ bs_kept b = keep_last cap (S0 ++ read ++ unread) /\
        bs_conns b !! c = Some (mkRx (lenN (S0 ++ read)) T) /\ bs_closed b = shut ops.
    Definition gone (b : Bus) (ops : list BusOp) (seen : list Seen) (fs : list Frame) (read unread : list ChainEvent) : Prop :=
      emitted ops = (read ++ unread)%list /\ shows T read fs /\ bs_conns b !! c = None /\ c < bs_count b /\
      (stays c ops \/ SEnd c ∈ seen -> shut ops = true /\ unread = []).

    Lemma shown_cons e l : shown json T (e :: l) = (shown json T [e] ++ shown json T l)%list.
    Proof. unfold shown. cbn [omap list_omap]. destruct (decide _); [|done]. by destruct (json e). Qed.
    Lemma shows_one e : shows T [e] (shown json T [e]).
    Proof.
      unfold shown. cbn [omap list_omap]. destruct (decide (topic_of e ∈ T)) as [H|H]; [|by apply sh_other; [|constructor]].
      destruct (json e) as [j|] eqn:Hj; [|by apply sh_bad; [|constructor]].
      apply sh_event; [done..|constructor].
    Qed.
    Lemma emitted_quiet ops o : match o with OEmit _ => False | _ => True end -> emitted (ops ++ [o]) = emitted ops.
    Proof. intros H. rewrite emitted_snoc. destruct (shut ops); [done|]. by destruct o; rewrite ?app_nil_r. Qed.
    (** What the connection's own reads do. *)
    Lemma attached_read b ops seen fs read unread : bus_inv b -> bs_capacity b = cap -> attached b ops fs read unread ->
      let n := lenN unread - cap in
      match unread with
      | [] => if shut ops then gone (step b (ORead c)).1 (ops ++ [ORead c]) seen fs read [] /\ (step b (ORead c)).2 = [SEnd c]
              else attached (step b (ORead c)).1 (ops ++ [ORead c]) fs read [] /\ (step b (ORead c)).2 = []
      | e :: u =>
          if lenN unread <=? cap then
            attached (step b (ORead c)).1 (ops ++ [ORead c]) (fs ++ shown json T [e]) (read ++ [e]) u /\
            (step b (ORead c)).2 = map (SFrame c) (shown json T [e])
          else
            attached (step b (ORead c)).1 (ops ++ [ORead c]) (fs ++ [FDropped n])
              (read ++ take (N.to_nat n) unread) (drop (N.to_nat n) unread) /\
            (step b (ORead c)).2 = [SFrame c (FDropped n)]
      end.
    Proof.
      intros (_ & _ & Hcount) Hcap (S0 & He & Hs & Ht & Hk & Hc & Hcl) n. cbn [bus_step]. unfold read_once. rewrite Hc. cbn [rx_next rx_topics].
      set (S := (S0 ++ read ++ unread)%list) in *.
      assert (HS : lenN S = lenN S0 + lenN read + lenN unread) by (subst S; unfold lenN; rewrite !app_length; lia).
      assert (HR : lenN (S0 ++ read) = lenN S0 + lenN read) by (unfold lenN; rewrite !app_length; lia).
      assert (Hold : bs_tail b - lenN (bs_kept b) = lenN S - cap).
      { rewrite Ht, Hk, keep_last_length. lia. }
      assert (Hem : emitted (ops ++ [ORead c]) = emitted ops) by by apply emitted_quiet.
      assert (Hsh : shut (ops ++ [ORead c]) = shut ops) by (rewrite shut_snoc; apply orb_false_r).
      assert (Hrecv : recv b (lenN (S0 ++ read)) =
        if cap <? lenN unread then (lenN (S0 ++ read) + n, RLagged n)
        else match unread with
             | e :: _ => (lenN (S0 ++ read) + 1, RValue e)
             | [] => (lenN (S0 ++ read), if shut ops then RClosed else RWait)
             end).
      { unfold recv. rewrite Hold, Hcl. destruct (N.ltb_spec cap (lenN unread)) as [Hl|Hl].
        - destruct (N.ltb_spec (lenN (S0 ++ read)) (lenN S - cap)) as [_|Hx]; [|exfalso; subst n; lia].
          subst n. f_equal; [lia|]. f_equal. lia.
        - destruct (N.ltb_spec (lenN (S0 ++ read)) (lenN S - cap)) as [Hx|Hx]; [exfalso; lia|].
          rewrite Hk, getN_keep by done. rewrite getN_lookup. subst S.
          rewrite (assoc_L (++)), lookup_app_r by (unfold lenN; lia).
          replace (N.to_nat (lenN (S0 ++ read)) - length (S0 ++ read))%nat with 0%nat by (unfold lenN; lia).
          destruct unread; done. }
      rewrite Hrecv. clear Hrecv.
      destruct unread as [|e u].
      - destruct (N.ltb_spec cap (lenN (@nil ChainEvent))) as [Hl|_]; [unfold lenN in Hl; cbn [length] in Hl; lia|].
        destruct (shut ops) eqn:Hso.
        + cbn. split; [|done]. unfold gone. rewrite Hem. split_and!; [done|done|apply lookup_delete|by apply (Hcount _ _ Hc)|].
          intros _. by split_and!.
        + cbn. split; [|done]. exists S0. rewrite Hem, Hsh. by split_and!.
      - destruct (N.ltb_spec cap (lenN (e :: u))) as [Hl|Hl].
        + rewrite (proj2 (N.leb_gt _ _)) by done. cbn [fst snd]. split; [|done].
          assert (Htd : ((read ++ take (N.to_nat n) (e :: u)) ++ drop (N.to_nat n) (e :: u) = read ++ e :: u)%list)
            by by rewrite <- app_assoc, take_drop.
          exists S0. rewrite Hem, Hsh, Htd. split_and!; cbn; try done.
          * apply shows_app; [done|].
            assert (Hn : lenN (take (N.to_nat n) (e :: u)) = n).
            { unfold lenN. rewrite take_length. subst n. unfold lenN in *. lia. }
            pose proof (sh_dropped json T (take (N.to_nat n) (e :: u)) [] []) as Hd.
            rewrite app_nil_r, Hn in Hd. apply Hd; [|constructor].
            intros H0. rewrite H0 in Hn. change (lenN []) with 0 in Hn. subst n. lia.
          * rewrite lookup_insert. do 2 f_equal. rewrite (assoc_L (++)). unfold lenN at 2. rewrite app_length, take_length.
            subst n. unfold lenN in *. lia.
        + rewrite (proj2 (N.leb_le _ _)) by done.
          assert (Hat : attached (set_conns b (<[c := mkRx (lenN (S0 ++ read) + 1) T]> (bs_conns b))) (ops ++ [ORead c])
                    (fs ++ shown json T [e]) (read ++ [e]) u).
          { exists S0. rewrite Hem, Hsh. rewrite <- (app_assoc read [e] u). split_and!; cbn [bs_tail bs_kept bs_conns bs_closed set_conns]; try done.
            - apply shows_app; [done|apply shows_one].
            - rewrite lookup_insert. do 2 f_equal. unfold lenN. rewrite !app_length. cbn [length]. lia. }
          unfold shown in *. cbn [omap list_omap] in *.
          destruct (decide (topic_of e ∈ T)) as [Hin|Hin].
          * rewrite bool_decide_false by tauto. destruct (json e) as [j|]; cbn [fmap option_fmap option_map] in *; done.
          * rewrite bool_decide_true by done. done.
    Qed.
    (** What the rest does to it. *)
    Lemma attached_other b ops fs read unread o : bus_inv b -> bs_capacity b = cap ->
      o <> ORead c -> o <> ODisconnect c -> attached b ops fs read unread ->
      attached (step b o).1 (ops ++ [o]) fs read
        (unread ++ (if shut ops then [] else match o with OEmit e => [e] | _ => [] end)) /\
      frames_of c (step b o).2 = [] /\ SEnd c ∉ (step b o).2.
    Proof.
      intros (_ & _ & Hcount) Hcap Ho1 Ho2 (S0 & He & Hs & Ht & Hk & Hc & Hcl).
      assert (Hnil : SEnd c ∉ (@nil Seen)) by (intros H; by apply elem_of_nil in H).
      assert (Hkeep : match o with OEmit _ | OShutdown => False | _ => True end -> forall b',
        bs_tail b' = bs_tail b -> bs_kept b' = bs_kept b -> bs_conns b' !! c = bs_conns b !! c -> bs_closed b' = bs_closed b ->
        attached b' (ops ++ [o]) fs read (unread ++ (if shut ops then [] else match o with OEmit e => [e] | _ => [] end))).
      { intros Hq b' H1 H2 H3 H4. assert (Hx : (if shut ops then [] else match o with OEmit e => [e] | _ => [] end) = []).
        { destruct (shut ops); [done|]. by destruct o. }
        rewrite Hx, app_nil_r. exists S0. rewrite emitted_quiet by by destruct o.
        rewrite shut_snoc, H1, H2, H3, H4. split_and!; try done. rewrite Hcl. destruct o; try done; by rewrite orb_false_r. }
      destruct o as [q|e|c'|c'|]; cbn [bus_step].
      - destruct (bs_closed b) eqn:Hcb; [by split_and!; [apply Hkeep|..]|].
        destruct (parse_topics q) as [ts|]; [|split_and!; [by apply Hkeep|done|]; cbn; intros H; by apply elem_of_list_singleton in H].
        cbn. split_and!; [|done|cbn; intros H; by apply elem_of_list_singleton in H]. apply Hkeep; try done. cbn.
        apply lookup_insert_ne. intros Heq. apply Hcount in Hc. lia.
      - rewrite Hcl. destruct (shut ops) eqn:Hso; cbn [orb].
        + cbn. split_and!; [|done|done]. exists S0. rewrite emitted_snoc, shut_snoc, Hso, app_nil_r. by split_and!.
        + rewrite bool_decide_false; [|intros H0; by rewrite H0, lookup_empty in Hc].
          cbn [fst snd]. split_and!; [|done|done]. exists S0. rewrite emitted_snoc, shut_snoc, Hso, He, <- app_assoc.
          cbn [bs_tail bs_kept bs_conns bs_closed orb].
          assert (HS : (S0 ++ read ++ unread ++ [e] = (S0 ++ read ++ unread) ++ [e])%list) by by rewrite <- !app_assoc.
          rewrite HS. split_and!; try done.
          * rewrite Ht. unfold lenN. rewrite (app_length (S0 ++ _)). cbn [length]. lia.
          * rewrite Hk, Hcap. apply keep_last_snoc.
      - assert (Hne : c' <> c) by (intros ->; done).
        unfold read_once. destruct (bs_conns b !! c') as [rx|] eqn:Hrx; [|by split_and!; [apply Hkeep|..]].
        destruct (recv b (rx_next rx)) as [next r].
        assert (Hi : forall rx' : Rx, attached (set_conns b (<[c' := rx']> (bs_conns b))) (ops ++ [ORead c']) fs read
          (unread ++ (if shut ops then [] else []))).
        { intros rx'. apply Hkeep; try done. cbn. by rewrite lookup_insert_ne. }
        assert (Hf : forall f, frames_of c [SFrame c' f] = []) by (intros f; cbn [frames_of]; by rewrite decide_False).
        destruct r as [e|n| |].
        + destruct (bool_decide _); [by split_and!; [apply Hi|..]|].
          destruct (json e); (split_and!; [apply Hi|first [apply Hf|done]|]); [|done].
          intros H. by apply elem_of_list_singleton in H.
        + split_and!; [apply Hi|apply Hf|]. intros H. by apply elem_of_list_singleton in H.
        + split_and!; [|done|cbn; intros [= ->]%elem_of_list_singleton; done]. apply Hkeep; try done. cbn. by rewrite lookup_delete_ne.
        + by split_and!; [apply Hkeep|..].
      - assert (Hne : c' <> c) by (intros ->; done). cbn. split_and!; [|done|done]. apply Hkeep; try done. cbn. by rewrite lookup_delete_ne.
      - cbn. split_and!; [|done|done].
        assert (Hx : (if shut ops then [] else []) = @nil ChainEvent) by by destruct (shut ops).
        rewrite Hx, app_nil_r. exists S0. rewrite emitted_quiet by done. rewrite shut_snoc, orb_true_r. by split_and!.
    Qed.

    Lemma gone_step b ops seen fs read unread o : bus_inv b -> gone b ops seen fs read unread ->
      gone (step b o).1 (ops ++ [o]) (seen ++ (step b o).2) fs read
        (unread ++ (if shut ops then [] else match o with OEmit e => [e] | _ => [] end)) /\
      frames_of c (step b o).2 = [].
    Proof.
      intros Hinv (He & Hs & Hc & Hn & Hq).
      destruct (inv_step b o Hinv) as (_ & _ & Hcount').
      assert (Hsee : frames_of c (step b o).2 = [] /\ SEnd c ∉ (step b o).2 /\ bs_conns (step b o).1 !! c = None).
      { assert (Hnil : SEnd c ∉ (@nil Seen)) by (intros H; by apply elem_of_nil in H).
        destruct o as [q|e|c'|c'|]; cbn [bus_step].
        - destruct (bs_closed b); [done|]. destruct (parse_topics q); cbn.
          + split_and!; [done|intros H; by apply elem_of_list_singleton in H|]. rewrite lookup_insert_ne; [done|]. lia.
          + split_and!; [done|intros H; by apply elem_of_list_singleton in H|done].
        - destruct (_ || _); done.
        - unfold read_once. destruct (bs_conns b !! c') as [rx|] eqn:Hrx; [|done].
          assert (Hne : c' <> c) by (intros ->; by rewrite Hc in Hrx).
          assert (Hf : forall f, frames_of c [SFrame c' f] = []) by (intros f; cbn [frames_of]; by rewrite decide_False).
          assert (Hf2 : forall f, SEnd c ∉ [SFrame c' f]) by (intros f H; by apply elem_of_list_singleton in H).
          assert (Hi : forall rx', bs_conns (set_conns b (<[c' := rx']> (bs_conns b))) !! c = None) by (intros rx'; cbn; by rewrite lookup_insert_ne).
          destruct (recv b (rx_next rx)) as [next r]. destruct r as [e|n| |].
          + destruct (bool_decide _); [by split_and!; try apply Hi|]. destruct (json e); split_and!; try apply Hi; try apply Hf; try apply Hf2; done.
          + split_and!; [apply Hf|apply Hf2|apply Hi].
          + split_and!; [done| |cbn; by rewrite lookup_delete_ne]. cbn. intros [= ->]%elem_of_list_singleton. done.
          + done.
        - split_and!; [done|done|]. cbn. destruct (decide (c' = c)) as [->|]; [apply lookup_delete|by rewrite lookup_delete_ne].
        - done. }
      destruct Hsee as (H1 & H2 & H3). split; [|done]. split_and!; [|done|done|lia|].
      - rewrite emitted_snoc, He. destruct (shut ops); by rewrite ?app_nil_r, ?app_assoc.
      - intros Hor. assert (Hor' : stays c ops \/ SEnd c ∈ seen).
        { destruct Hor as [Hst|Hin]; [left; unfold stays in *; rewrite elem_of_app in Hst; tauto|].
          apply elem_of_app in Hin as [|]; [by right|done]. }
        destruct (Hq Hor') as [-> ->]. split; [|done]. rewrite shut_snoc. 
        destruct (shut ops) eqn:Hx; [done|]. by destruct (Hq Hor') as [? _]; congruence.
    Qed.
    Lemma disconnect_step b ops seen fs read unread : bus_inv b -> attached b ops fs read unread -> SEnd c ∉ seen ->
      gone (step b (ODisconnect c)).1 (ops ++ [ODisconnect c]) seen fs read unread /\ (step b (ODisconnect c)).2 = [].
    Proof.
      intros (_ & _ & Hcount) (S0 & He & Hs & Ht & Hk & Hc & Hcl) Hns. cbn. split; [|done].
      split_and!; [by rewrite emitted_quiet|done|apply lookup_delete|by apply (Hcount _ _ Hc)|].
      intros [Hst|Hin]; [|done]. exfalso. apply Hst. apply elem_of_app. right. by apply elem_of_list_singleton.
    Qed.

    Lemma op_eq_dec (o : BusOp) : (o = ORead c) + (o = ODisconnect c) + (o <> ORead c /\ o <> ODisconnect c).
    Proof.
      destruct o as [q|e|c'|c'|]; try (by right).
      - destruct (decide (c' = c)) as [->|]; [by left; left|]. right. split; congruence.
      - destruct (decide (c' = c)) as [->|]; [by left; right|]. right. split; congruence.
    Qed.
    (** The connection after any history. *)
    Lemma conn_run b1 ops : bus_inv b1 -> bs_capacity b1 = cap -> attached b1 [] [] [] [] ->
      let '(b2, seen) := run b1 ops in
      (exists r u, attached b2 ops (frames_of c seen) r u /\ SEnd c ∉ seen) \/
      (exists r u, gone b2 ops seen (frames_of c seen) r u).
    Proof.
      intros Hinv Hcap H0. induction ops as [|o ops IH] using rev_ind.
      - cbn. left. exists [], []. split; [done|]. intros H. by apply elem_of_nil in H.
      - rewrite run_snoc. destruct (inv_run b1 ops Hinv) as [Hinv2 Hcap2]. rewrite Hcap in Hcap2.
        destruct (run b1 ops) as [b2 seen]. cbn [fst snd] in *. rewrite frames_app.
        destruct IH as [(r & u & Hat & Hns)|(r & u & Hg)].
        2:{ right. destruct (gone_step _ _ _ _ _ _ o Hinv2 Hg) as [Hg' ->]. rewrite app_nil_r. eauto. }
        destruct (op_eq_dec o) as [[->| ->]|[Ho1 Ho2]].
        + pose proof (attached_read b2 ops (seen ++ [SEnd c]) _ r u Hinv2 Hcap2 Hat) as Hr. cbv zeta in Hr.
          destruct u as [|e u].
          * destruct (shut ops); destruct Hr as [Hr Hsn]; rewrite Hsn.
            -- right. exists r, []. cbn [frames_of]. by rewrite app_nil_r.
            -- left. exists r, []. cbn [frames_of]. by rewrite !app_nil_r.
          * assert (Hfr : forall l, frames_of c (map (SFrame c) l) = l).
            { induction l as [|x l IHl]; [done|]. cbn [map frames_of]. rewrite decide_True by done. by rewrite IHl. }
            destruct (_ <=? cap); destruct Hr as [Hr Hsn]; rewrite Hsn; left.
            -- exists (r ++ [e]), u. rewrite Hfr. split; [done|]. rewrite elem_of_app. intros [?|Hx]; [done|].
               apply elem_of_list_fmap in Hx as (? & ? & _). done.
            -- eexists _, _. cbn [frames_of]. rewrite decide_True by done. split; [exact Hr|].
               rewrite elem_of_app, elem_of_list_singleton. intros [?|?]; done.
        + right. destruct (disconnect_step _ _ seen _ _ _ Hinv2 Hat Hns) as [Hg ->]. cbn [frames_of]. rewrite !app_nil_r. eauto.
        + left. destruct (attached_other _ _ _ _ _ o Hinv2 Hcap2 Ho1 Ho2 Hat) as (Ha & -> & Hx). rewrite app_nil_r.
          eexists _, _. split; [exact Ha|]. rewrite elem_of_app. tauto.
    Qed.
    Lemma opened_attached b b1 : bus_inv b -> bs_capacity b = cap -> opened json b T c b1 ->
      bus_inv b1 /\ bs_capacity b1 = cap /\ attached b1 [] [] [] [].
    Proof.
      intros Hinv Hcap Ho. unfold opened in Ho. destruct (inv_step b (OConnect (Some (comma_list (map topic_str T)))) Hinv) as (H1 & H2 & _).
      rewrite Ho in H1, H2. cbn [fst] in H1, H2. split_and!; [done|by rewrite H2|].
      destruct Hinv as (_ & (S0 & Ht & Hk) & _). cbn [bus_step] in Ho.
      destruct (bs_closed b) eqn:Hcl; [done|]. destruct (parse_topics _) as [ts|] eqn:Hp; [|done].
      assert (ts = T) as ->.
      { destruct T as [|t T']; [done|]. rewrite (proj2 (parse_topics_spec _ (t :: T'))) in Hp; [by injection Hp|done]. }
      injection Ho as <- Hcc. exists S0. cbn. rewrite !app_nil_r, <- Hcap. split_and!; try done; [constructor|].
      by rewrite Hcc, lookup_insert, Ht.
    Qed.

    Lemma shown_app l1 l2 : shown json T (l1 ++ l2) = (shown json T l1 ++ shown json T l2)%list.
    Proof. induction l1 as [|e l1 IH]; [done|]. cbn [app]. by rewrite shown_cons, IH, (shown_cons e l1), app_assoc. Qed.
    Lemma emitted_grow ops o : lenN (emitted ops) <= lenN (emitted (ops ++ [o])).
    Proof. rewrite emitted_snoc. destruct (shut ops); [lia|]. unfold lenN. rewrite app_length. lia. Qed.
    Lemma reads_snoc ops o : reads c (ops ++ [o]) = reads c ops + reads c [o].
    Proof. induction ops as [|x ops IH]; [done|]. destruct x; cbn [app reads] in *; rewrite ?IH; lia. Qed.
    Lemma reads_other o : o <> ORead c -> reads c [o] = 0.
    Proof. intros H. destruct o as [| |c'| |]; cbn [reads]; try done. rewrite decide_False; [done|congruence]. Qed.
    Lemma reads_own : reads c [ORead c] = 1.
    Proof. cbn [reads]. rewrite decide_True by done. done. Qed.
    Lemma shut_app l1 l2 : shut (l1 ++ l2) = shut l1 || shut l2.
    Proof. apply existsb_app. Qed.
    Lemma stays_snoc ops o : stays c (ops ++ [o]) -> stays c ops /\ o <> ODisconnect c.
    Proof. unfold stays. rewrite elem_of_app, elem_of_list_singleton. intros H. split; [tauto|]. intros ->. tauto. Qed.

    Lemma keeps_run b1 ops : bus_inv b1 -> bs_capacity b1 = cap -> attached b1 [] [] [] [] -> stays c ops ->
      (forall p m s, ops = (p ++ m ++ s)%list -> lenN (emitted m) <= reads c m + cap) ->
      let '(b2, seen) := run b1 ops in
      (exists r u, attached b2 ops (frames_of c seen) r u /\ frames_of c seen = shown json T r /\
         exists p m, ops = (p ++ m)%list /\ lenN u + reads c m <= lenN (emitted m)) \/
      (exists r, gone b2 ops seen (frames_of c seen) r [] /\ frames_of c seen = shown json T r /\ shut ops = true).
    Proof.
      intros Hinv Hcap H0. induction ops as [|o ops IH] using rev_ind; intros Hst Hb.
      - cbn. left. exists [], []. split_and!; [done..|]. exists [], []. done.
      - apply stays_snoc in Hst as [Hst Ho2].
        assert (Hb' : forall p m s, ops = (p ++ m ++ s)%list -> lenN (emitted m) <= reads c m + cap).
        { intros p m s Heq. apply (Hb p m (s ++ [o])). by rewrite Heq, <- !app_assoc. }
        specialize (IH Hst Hb'). rewrite run_snoc. destruct (inv_run b1 ops Hinv) as [Hinv2 Hcap2]. rewrite Hcap in Hcap2.
        destruct (run b1 ops) as [b2 seen]. cbn [fst snd] in *. rewrite frames_app.
        destruct IH as [(r & u & Hat & Hfr & p & m & Heq & Hu)|(r & Hg & Hfr & Hsh)].
        2:{ right. destruct (gone_step _ _ _ _ _ _ o Hinv2 Hg) as [Hg' ->]. rewrite Hsh in Hg'. rewrite app_nil_r. exists r.
            split_and!; [done..|]. by rewrite shut_snoc, Hsh. }
        assert (Hcapu : lenN u <= cap).
        { pose proof (Hb' p m [] ltac:(by rewrite app_nil_r)). lia. }
        destruct (op_eq_dec o) as [[->| ->]|[Ho1 _]]; [|done|].
        + pose proof (attached_read b2 ops (seen ++ [SEnd c]) _ r u Hinv2 Hcap2 Hat) as Hr. cbv zeta in Hr.
          destruct u as [|e u].
          * destruct (shut ops) eqn:Hso; destruct Hr as [Hr Hsn]; rewrite Hsn; cbn [frames_of]; rewrite ?app_nil_r.
            -- right. exists r. split_and!; [done..|]. by rewrite shut_snoc, Hso.
            -- left. exists r, []. split_and!; [done..|]. exists (ops ++ [ORead c]), []. by rewrite app_nil_r.
          * assert (Hfr' : forall l, frames_of c (map (SFrame c) l) = l).
            { induction l as [|x l IHl]; [done|]. cbn [map frames_of]. rewrite decide_True by done. by rewrite IHl. }
            rewrite (proj2 (N.leb_le _ _) Hcapu) in Hr. destruct Hr as [Hr Hsn]. rewrite Hsn, Hfr'. left.
            exists (r ++ [e]), u. split_and!; [done|by rewrite shown_app, Hfr|].
            exists p, (m ++ [ORead c]). split; [by rewrite Heq, app_assoc|]. rewrite reads_snoc, reads_own.
            pose proof (emitted_grow m (ORead c)). unfold lenN in *. cbn [length] in Hu. lia.
        + left. destruct (attached_other _ _ _ _ _ o Hinv2 Hcap2 Ho1 Ho2 Hat) as (Ha & -> & Hx). rewrite app_nil_r.
          eexists _, _. split_and!; [exact Ha|done|]. exists p, (m ++ [o]). split; [by rewrite Heq, app_assoc|].
          rewrite reads_snoc, reads_other by done. rewrite emitted_snoc.
          assert (Hsm : shut ops = false -> shut m = false) by (rewrite Heq, shut_app; destruct (shut p), (shut m); done).
          destruct (shut ops).
          * rewrite app_nil_r. pose proof (emitted_grow m o) as Hg. rewrite emitted_snoc in Hg. lia.
          * rewrite Hsm by done. unfold lenN in *. rewrite !app_length. lia.
    Qed.
    Lemma complete_run b1 p m : bus_inv b1 -> bs_capacity b1 = cap -> attached b1 [] [] [] [] -> stays c (p ++ m) ->
      emitted (p ++ m) = emitted p ->
      let '(b2, seen) := run b1 (p ++ m) in
      (exists r u, attached b2 (p ++ m) (frames_of c seen) r u /\ lenN u + reads c m <= N.max (lenN (emitted p)) (reads c m)) \/
      (exists r, gone b2 (p ++ m) seen (frames_of c seen) r []).
    Proof.
      intros Hinv Hcap H0. induction m as [|o m IH] using rev_ind; intros Hst He.
      - pose proof (conn_run b1 (p ++ []) Hinv Hcap H0) as Hr. destruct (run b1 (p ++ [])) as [b2 seen].
        destruct Hr as [(r & u & Hat & _)|(r & u & Hg)].
        + left. exists r, u. split; [done|]. destruct Hat as (S0 & Hem & _). rewrite He in Hem. rewrite Hem.
          cbn [reads]. unfold lenN. rewrite app_length. lia.
        + right. exists r. pose proof Hg as (_ & _ & _ & _ & Hq). destruct (Hq (or_introl Hst)) as [_ ->]. done.
      - rewrite app_assoc in *. apply stays_snoc in Hst as [Hst Ho2].
        assert (Hem' : emitted (p ++ m) = emitted p).
        { assert (Hl : lenN (emitted p) <= lenN (emitted (p ++ m))).
          { clear IH Hst Ho2 He. induction m as [|x m IHm] using rev_ind; [rewrite app_nil_r; lia|].
            rewrite app_assoc. pose proof (emitted_grow (p ++ m) x). lia. }
          rewrite emitted_snoc in He. destruct (shut (p ++ m)); [done|].
          destruct o as [|e| | |]; rewrite ?app_nil_r in He; try done.
          apply (f_equal lenN) in He. unfold lenN in *. rewrite app_length in He. cbn [length] in He. lia. }
        specialize (IH Hst Hem'). rewrite run_snoc. destruct (inv_run b1 (p ++ m) Hinv) as [Hinv2 Hcap2]. rewrite Hcap in Hcap2.
        destruct (run b1 (p ++ m)) as [b2 seen]. cbn [fst snd] in *. rewrite frames_app.
        destruct IH as [(r & u & Hat & Hu)|(r & Hg)].
        2:{ right. pose proof Hg as (_ & _ & _ & _ & Hq). destruct (Hq (or_introl Hst)) as [Hs _].
            destruct (gone_step _ _ _ _ _ _ o Hinv2 Hg) as [Hg' ->]. rewrite Hs in Hg'. rewrite app_nil_r. by exists r. }
        destruct (op_eq_dec o) as [[->| ->]|[Ho1 _]]; [|done|].
        + pose proof (attached_read b2 (p ++ m) (seen ++ [SEnd c]) _ r u Hinv2 Hcap2 Hat) as Hr. cbv zeta in Hr.
          rewrite reads_snoc, reads_own.
          destruct u as [|e u].
          * destruct (shut (p ++ m)) eqn:Hso; destruct Hr as [Hr Hsn]; rewrite Hsn; cbn [frames_of]; rewrite ?app_nil_r.
            -- right. by exists r.
            -- left. exists r, []. split; [done|]. unfold lenN at 1. cbn [length]. lia.
          * assert (Hfr' : forall l, frames_of c (map (SFrame c) l) = l).
            { induction l as [|x l IHl]; [done|]. cbn [map frames_of]. rewrite decide_True by done. by rewrite IHl. }
            destruct (N.leb_spec (lenN (e :: u)) cap) as [Hl|Hl]; destruct Hr as [Hr Hsn]; rewrite Hsn; left.
            -- eexists _, _. rewrite Hfr'. split; [exact Hr|]. unfold lenN in *. cbn [length] in *. lia.
            -- eexists _, _. cbn [frames_of]. rewrite decide_True by done. split; [exact Hr|].
               assert (Hd : lenN (drop (N.to_nat (lenN (e :: u) - cap)) (e :: u)) = cap).
               { unfold lenN in *. rewrite drop_length. lia. }
               rewrite Hd. lia.
        + left. destruct (attached_other _ _ _ _ _ o Hinv2 Hcap2 Ho1 Ho2 Hat) as (Ha & -> & Hx). rewrite app_nil_r.
          rewrite reads_snoc, reads_other by done.
          eexists _, _. split; [exact Ha|].
          assert (Hn : (if shut (p ++ m) then [] else match o with OEmit e => [e] | _ => [] end) = []).
          { rewrite emitted_snoc, Hem' in He. destruct (shut (p ++ m)); [done|].
            apply (f_equal length) in He. rewrite app_length in He. destruct o; cbn [length] in He; [done|lia|done..]. }
          rewrite Hn, app_nil_r. lia.
    Qed.
  End Conn.
End Stream.
