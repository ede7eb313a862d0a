(** Key windows and one-time keys (C72). *)
From Verif Require Export XmssSpec DutyAsk.
Local Open Scope N_scope.

(** ** One key *)
Lemma prepared_spec k s : is_prepared_for k s = true <-> k_first k * 65536 <= s < (k_first k + 2) * 65536.
Proof. unfold is_prepared_for, LEAVES. rewrite andb_true_iff, N.leb_le, N.ltb_lt. done. Qed.

(** What moving a key's window for slot [s] gives. *)
Record moved (k : Key) (s : N) (k' : Key) (ok : bool) : Prop := {
  mv_id : k_id k' = k_id k;
  mv_end : k_end k' = k_end k;
  mv_le : k_first k <= k_first k';
  mv_okk : key_ok k';
  mv_true : ok = true <-> key_from k <= s < key_until k;
  mv_prep : ok = true -> key_from k' <= s < key_from k' + 2 * 65536;
  mv_false : ok = false -> k_first k' + 2 = k_end k;
  mv_least : k' = k \/ s < key_from k \/ (k_first k' + 1) * 65536 <= s }.

Lemma advance_loop_spec fuel k s : key_ok k -> (N.to_nat (k_end k) < fuel + N.to_nat (k_first k))%nat ->
  exists k' ok, advance_loop fuel k s = Some (k', ok) /\ moved k s k' ok.
Proof.
  revert k. induction fuel as [|f IH]; intros k Hk Hf; unfold key_ok in Hk; [lia|]. cbn [advance_loop].
  destruct (is_prepared_for k s) eqn:Hp.
  - apply prepared_spec in Hp. exists k, true. split; [done|]. unfold key_ok, key_from, key_until. constructor; try done.
    + split; [|done]. intros _. unfold key_from, key_until. nia.
    + intros _. unfold key_from. lia.
    + by left.
  - assert (~ (k_first k * 65536 <= s < (k_first k + 2) * 65536)) as Hn by (rewrite <- prepared_spec, Hp; done).
    unfold advance_preparation. destruct (N.leb_spec (k_first k + 3) (k_end k)) as [Hle|Hle]; cbn [k_first].
    + rewrite (proj2 (N.eqb_neq _ _)) by lia.
      destruct (IH (mkKey (k_id k) (k_first k + 1) (k_end k))) as (k' & ok & -> & M);
        [unfold key_ok; cbn; lia|cbn [k_first k_end]; lia|].
      exists k', ok. split; [done|]. destruct M. unfold key_from, key_until, key_ok in *. cbn [k_id k_first k_end] in *.
      constructor; unfold key_from, key_until, key_ok; try done; try lia.
      * rewrite mv_true0. lia.
      * destruct mv_least0 as [->|[?|?]]; [|lia|lia]. cbn [k_first]. lia.
    + rewrite N.eqb_refl. exists k, false. split; [done|].
      constructor; unfold key_from, key_until, key_ok; try done; try lia.
Qed.
Lemma advance_key_spec k s : key_ok k -> moved k s (advance_key k s).1 (advance_key k s).2.
Proof.
  intros Hk. unfold advance_key. destruct (advance_loop_spec (advance_fuel k) k s Hk) as (k' & ok & -> & M); [|done].
  unfold advance_fuel. lia.
Qed.

(** ** All keys over time *)
(** The window of a key whose slots so far are at most [M]. *)
Definition key_at (k0 k : Key) (M : N) : Prop :=
  k_id k = k_id k0 /\ k_end k = k_end k0 /\ k_first k0 <= k_first k /\ key_ok k /\
  (k_first k = k_first k0 \/ (k_first k + 1) * 65536 <= M).
Definition keys_at (K0 K : KeyManager) (M : N) : Prop :=
  forall v, match K0 !! v, K !! v with
            | Some p0, Some p => key_at (kp_att p0) (kp_att p) M /\ key_at (kp_prop p0) (kp_prop p) M
            | None, None => True
            | _, _ => False
            end.

Lemma key_at_mono k0 k M M' : key_at k0 k M -> M <= M' -> key_at k0 k M'.
Proof. intros (?&?&?&?&[?|?]) ?; unfold key_at; split_and!; try done; [by left|right; lia]. Qed.
Lemma keys_at_mono K0 K M M' : keys_at K0 K M -> M <= M' -> keys_at K0 K M'.
Proof.
  intros H Hle v. specialize (H v). destruct (K0 !! v), (K !! v); try done.
  destruct H; split; by eapply key_at_mono.
Qed.
Lemma key_at_start k M : key_ok k -> key_at k k M.
Proof. intros. unfold key_at. split_and!; try done. by left. Qed.
Lemma keys_at_start K M : keys_ok K -> keys_at K K M.
Proof. intros H v. destruct (K !! v) as [p|] eqn:Hp; [|done]. destruct (H _ _ Hp). split; by apply key_at_start. Qed.

(** A key advanced to slot [s], no earlier than its loaded window and not before [M]. *)
Lemma key_at_advance k0 k M s : key_at k0 k M -> key_from k0 <= s -> M <= s + 65536 ->
  key_at k0 (advance_key k s).1 (N.max M s) /\ ((advance_key k s).2 = true <-> s < key_until k0).
Proof.
  intros (Hi & He & Hf & Hk & Hc) H0 HM. destruct (advance_key_spec k s Hk). unfold key_from, key_until in *.
  assert (k_first k * 65536 <= s) as Hle by (destruct Hc as [->|Hc]; lia).
  split.
  - unfold key_at. split_and!; [congruence|congruence|lia|done|].
    destruct mv_least0 as [Heq|[?|?]]; [rewrite Heq|lia|right; lia]. destruct Hc as [Hc|Hc]; [by left|right; lia].
  - rewrite mv_true0, He. lia.
Qed.

  Lemma advance_all_at K0 K M s : keys_at K0 K M -> not_early K0 s -> M <= s + 65536 ->
    keys_at K0 (advance_keys_to K s) (N.max M s).
  Proof.
    intros HK Hne HM v. unfold advance_keys_to. rewrite lookup_fmap. specialize (HK v).
    destruct (K0 !! v) as [p0|] eqn:H0; destruct (K !! v) as [p|] eqn:H1; try done. cbn [fmap option_fmap option_map kp_att kp_prop].
    destruct HK as [Ha Hp]. destruct (Hne _ _ H0). split; by apply key_at_advance.
  Qed.
  Lemma not_early_mono K0 s s' : not_early K0 s -> s <= s' -> not_early K0 s'.
  Proof. intros H Hle v p Hp. destruct (H _ _ Hp). split; lia. Qed.
Section Sign.
  Context (X : N -> N -> H256 -> option N) (E : Env).
  Lemma as_u32_small n : n < two32 -> as_u32 n = n.
  Proof. apply N.mod_small. Qed.

  Lemma call_at K0 K M c s : keys_at K0 K M -> call_slot c = s -> s < two32 -> not_early K0 s -> M <= s + 65536 ->
    keys_at K0 (do_call X (e_data E) K c).1 (N.max M s) /\ (do_call X (e_data E) K c).2 = answer X E K0 c.
  Proof.
    intros HK Hs Hlt Hne HM. pose proof HK as HK'.
    destruct c as [v d|v sl r]; cbn [do_call call_slot] in *; subst s; rewrite ?as_u32_small by done;
      unfold answer, sign_attestation, sign_block_root; cbn [call_validator call_key call_slot call_message];
      rewrite ?as_u32_small by done; specialize (HK' v);
      (destruct (K0 !! v) as [p0|] eqn:H0; destruct (K !! v) as [p|] eqn:H1; try done;
       [|split; [eapply keys_at_mono; [exact HK|lia]|done]]); destruct HK' as [Ha Hp]; destruct (Hne _ _ H0) as [Ea Ep];
      cbv zeta; cbn [fst snd]; rewrite ?as_u32_small by done.
    - destruct (key_at_advance _ _ _ _ Ha Ea HM) as [Ha' Ho]. split.
      + intros u. destruct (decide (u = v)) as [->|Hu].
        * rewrite H0, lookup_insert. cbn [kp_att kp_prop]. split; [done|]. eapply key_at_mono; [exact Hp|lia].
        * rewrite lookup_insert_ne by done. specialize (HK u). destruct (K0 !! u), (K !! u); try done.
          destruct HK. split; (eapply key_at_mono; [eassumption|lia]).
      + destruct Ha' as (-> & _). destruct (advance_key (kp_att p) (ad_slot d)).2 eqn:Hb.
        * by rewrite (proj2 (N.ltb_lt _ _)) by (by apply Ho).
        * destruct (N.ltb_spec (ad_slot d) (key_until (kp_att p0))) as [Hx|]; [|done]. by apply Ho in Hx.
    - destruct (key_at_advance _ _ _ _ Hp Ep HM) as [Hp' Ho]. split.
      + intros u. destruct (decide (u = v)) as [->|Hu].
        * rewrite H0, lookup_insert. cbn [kp_att kp_prop]. split; [|done]. eapply key_at_mono; [exact Ha|lia].
        * rewrite lookup_insert_ne by done. specialize (HK u). destruct (K0 !! u), (K !! u); try done.
          destruct HK. split; (eapply key_at_mono; [eassumption|lia]).
      + destruct Hp' as (-> & _). destruct (advance_key (kp_prop p) sl).2 eqn:Hb.
        * by rewrite (proj2 (N.ltb_lt _ _)) by (by apply Ho).
        * destruct (N.ltb_spec sl (key_until (kp_prop p0))) as [Hx|]; [|done]. by apply Ho in Hx.
  Qed.
  Lemma calls_at K0 K M cs s : keys_at K0 K M -> (forall c, c ∈ cs -> call_slot c = s) -> s < two32 -> not_early K0 s ->
    M <= s + 65536 ->
    keys_at K0 (do_calls X (e_data E) K cs).1 (N.max M s) /\
    (do_calls X (e_data E) K cs).2 = map (fun c => (c, answer X E K0 c)) cs.
  Proof.
    intros HK Hs Hlt Hne HM. revert K M HK HM. induction cs as [|c cs IH]; intros K M HK HM; cbn [do_calls map fst snd].
    - split; [|done]. eapply keys_at_mono; [exact HK|lia].
    - destruct (call_at _ _ _ c s HK) as [H1 H2]; try done; [apply Hs; left|].
      destruct (IH ltac:(intros; apply Hs; by right) _ _ H1) as [H3 H4]; [lia|]. rewrite H2, H4. split; [|done].
      eapply keys_at_mono; [exact H3|lia].
  Qed.
End Sign.

Section Life.
  Context (E : Env) (C : Config) (gt : N) (vals : list Validator).
  Context (Hgood : good_hash (e_header E)) (Hvals : lenN vals <= VALIDATOR_REGISTRY_LIMIT) (Hne : vals <> []).
  Context (X : N -> N -> H256 -> option N) (K0 : KeyManager).
  Notation reach := (reachable E gt vals).
  Notation time a := (db_time (nd_db (ac_node a))).

  Lemma step_reach W a m a' fx : reach (ac_node a) -> actor_step E C W a m = Ok (a', fx) ->
    reach (ac_node a') /\ time a <= time a'.
  Proof. intros Hr H. apply (step_out E C gt vals Hgood Hvals _ _ _ _ _ Hr) in H as (?&?&_). done. Qed.
  Lemma handled_spec W a : tick_handled W a = true -> time a = 0 \/ time a < wall_interval W a.
  Proof. unfold tick_handled. rewrite orb_true_iff, N.eqb_eq, N.ltb_lt. done. Qed.

  Lemma handled_tick W a a' fx : reach (ac_node a) -> actor_step E C W a m_tick = Ok (a', fx) ->
    tick_handled W a = true ->
    let i := wall_interval W a in
    time a <= i /\ i <= time a' /\ (i mod 5 = 4 -> duties_allowed C a' = true ->
      is_Some (List.find (fun v => is_proposer v (i / 5 + 1) (lenN vals)) (cf_own C)) -> 5 * (i / 5 + 1) <= time a').
  Proof.
    cbn zeta. intros Hr H Hh. apply handled_spec in Hh. set (i := wall_interval W a) in *.
    split; [lia|]. cbn [actor_step] in H.
    apply tick_detail in H as [(-> & _ & [Hid|(s & Hs & Hv)])|(hp & n2 & a2 & ev & fx2 & Htime & Hon & Hn2 & Hsy & Hse & _ & Hd)].
    - fold i in Hid. lia.
    - by rewrite (head_vals E gt vals Hgood Hvals _ _ Hr Hs) in Hv.
    - fold i in Hd. assert (reach n2) as Hr2.
      { eapply reach_run; [exact Hr|]. apply run_one. instantiate (1 := ev_tick (w_now W) hp). exact Hon. }
      pose proof (C35_clock_pf _ _ _ _ _ Hon) as Hclk. fold (wall_interval W a) in Hclk. fold i in Hclk.
      pose proof (interval_goes _ _ _ _ _ _ _ _ Hd) as (G & _). rewrite Hn2 in G.
      destruct (time_goes E gt vals Hgood Hvals _ _ _ Hr2 G) as [Ht _]. split; [lia|].
      intros Hm Hda [v Hv].
      destruct (interval_cases i) as [[Hi Hm']|[[Hi Hm']|[[Hi Hm']|[[Hi Hm']|[Hi Hm']]]]]; try lia.
      rewrite Hi in Hd. cbn [interval_duty] in Hd.
      apply rbind_Ok in Hd as (p & Hp & Hd). unfold get_our_proposer in Hp. rewrite Hn2 in Hp.
      apply rbind_Ok in Hp as (s & Hs & Hp). injection Hp as <-.
      rewrite (head_vals E gt vals Hgood Hvals _ _ Hr2 Hs), Hv in Hd.
      assert (duties_allowed C a2 = true) as Hd2 by (unfold duties_allowed in *; by rewrite Hsy).
      rewrite Hd2 in Hd. apply (propose_facts E gt vals Hgood Hvals) in Hd as (n1 & h & _ & _ & T & _); [done|by rewrite Hn2].
  Qed.

  Lemma tick_calls_in nv a i d b r c : c ∈ tick_calls C nv a i d b r ->
    (i mod 5 = 1 /\ exists v, c = c_vote v d) \/
    (i mod 5 = 4 /\ duties_allowed C a = true /\
     exists v, c = c_block v (i / 5 + 1) r /\ List.find (fun v => is_proposer v (i / 5 + 1) nv) (cf_own C) = Some v).
  Proof.
    unfold tick_calls. destruct (duties_allowed C a); cbn [negb]; [|intros H; by apply elem_of_nil in H].
    destruct (N.eqb_spec (i mod 5) 1) as [H1|H1].
    - intros H. apply elem_of_list_fmap in H as (v & -> & _). left. split; [done|]. by exists v.
    - destruct (N.eqb_spec (i mod 5) 4) as [H4|H4]; cbn [andb]; [|intros H; by apply elem_of_nil in H].
      destruct b; [|intros H; by apply elem_of_nil in H].
      destruct (List.find _ _) as [v|] eqn:Hf; [|intros H; by apply elem_of_nil in H].
      intros H. apply elem_of_list_singleton in H as ->. right. split_and!; [done|done|]. by exists v.
  Qed.

  Definition key_use (x : Call * option N) : bool * N * N := (call_kind x.1, call_validator x.1, call_slot x.1).
  Lemma do_calls_fst K cs : map fst (do_calls X (e_data E) K cs).2 = cs.
  Proof. revert K. induction cs as [|c cs IH]; intros K; cbn [do_calls fst snd map]; [done|]. by rewrite IH. Qed.
  Lemma uses_nodup nv a i d b r : NoDup (cf_own C) ->
    NoDup (map (fun c => (call_kind c, call_validator c, call_slot c)) (tick_calls C nv a i d b r)).
  Proof.
    intros Hown. unfold tick_calls. destruct (duties_allowed C a); cbn [negb]; [|constructor].
    destruct (i mod 5 =? 1).
    - rewrite map_map. cbn [call_kind call_validator call_slot]. assert (Inj eq eq (fun v : N => (true, v, ad_slot d))) as HI by (intros ? ? [=]; done).
      by apply (NoDup_fmap_2 (fun v => (true, v, ad_slot d))).
    - destruct (_ && b); [|constructor]. destruct (List.find _ _); cbn; [|constructor].
      constructor; [by intros ?%elem_of_nil|constructor].
  Qed.

  (** Where a call's slot stands on the node's clock. *)
  Definition call_bound (a : Actor) (c : Call) : Prop :=
    (call_kind c = true -> 5 * call_slot c + 1 <= time a) /\
    (call_kind c = false -> 5 <= 5 * call_slot c <= time a).

  Lemma life_facts a l a' K : reach (ac_node a) -> key_life E C X (lenN vals) K0 a l a' K ->
    reach (ac_node a') /\
    (forall x, x ∈ all_calls l -> call_bound a' x.1) /\
    (NoDup (cf_own C) -> NoDup (map key_use (all_calls l))) /\
    (forall t x, t ∈ l -> x ∈ tl_calls t -> call_slot x.1 <= tl_slot t + 1) /\
    (keys_ok K0 -> (forall t, t ∈ l -> slot_fits (tl_slot t) /\ not_early K0 (tl_slot t)) ->
     keys_at K0 K (time a' / 5 + 1) /\ forall x, x ∈ all_calls l -> x.2 = answer X E K0 x.1).
  Proof.
    intros Hr. induction 1 as [|l a1 K W m a2 fx Hl IH HW Hm Hs|l a1 K W a2 fx d b r Hl IH HW Hsg Hh Hs i Hd x|l a1 K Hl IH].
    - split; [done|]. cbn. split_and!; try (intros ? H; by apply elem_of_nil in H).
      + constructor.
      + intros ? ? H. by apply elem_of_nil in H.
      + intros Hk _. split; [by apply keys_at_start|]. intros ? H. by apply elem_of_nil in H.
    - destruct IH as (R & B & D & S & A). destruct (step_reach _ _ _ _ _ R Hs) as [R2 T]. split_and!; try done.
      + intros x Hx. destruct (B x Hx). split; intros Hk; [specialize (H Hk)|specialize (H0 Hk)]; lia.
      + intros Hk Ht. destruct (A Hk Ht) as [A1 A2]. split; [|done]. eapply keys_at_mono; [exact A1|].
        pose proof (N.div_le_mono (time a1) (time a2) 5 ltac:(lia) T). lia.
    - destruct IH as (R & B & D & S & A). destruct (step_reach _ _ _ _ _ R Hs) as [R2 T].
      destruct (handled_tick _ _ _ _ R Hs Hh) as (T1 & T2 & T3). apply handled_spec in Hh. fold i in T1, T2, T3, Hh.
      pose proof (N.div_mod i 5 ltac:(lia)) as Hdm.
      set (cs := tick_calls C (lenN vals) a2 i d b r) in *.
      assert (forall c, c ∈ cs -> call_bound a2 c /\
        ((i mod 5 = 1 /\ call_kind c = true /\ call_slot c = i / 5) \/
         (i mod 5 = 4 /\ call_kind c = false /\ call_slot c = i / 5 + 1))) as Hcs.
      { intros c Hc. apply tick_calls_in in Hc as [(H1 & v & ->)|(H4 & Ha & v & -> & Hf)].
        - specialize (Hd H1). apply produced_slot in Hd. split; [split; cbn; [rewrite Hd; lia|done]|]. left. done.
        - split; [split; cbn; [done|]|right; done]. specialize (T3 H4 Ha ltac:(by exists v)). lia. }
      assert (forall y, y ∈ x.2 -> y.1 ∈ cs) as Hx.
      { intros y Hy. rewrite <- (do_calls_fst K cs). apply elem_of_list_fmap. by exists y. }
      unfold all_calls in *. rewrite !map_app, concat_app. cbn [map concat tl_calls]. rewrite app_nil_r.
      split_and!; [done| | | |].
      + intros y [Hy|Hy]%elem_of_app; [|by apply Hcs, Hx].
        destruct (B y Hy) as [B1 B2]. split; intros Hk; [specialize (B1 Hk)|specialize (B2 Hk)]; lia.
      + intros Hown. rewrite map_app. apply NoDup_app. split_and!; [by apply D| |].
        * intros y H1 H2. apply elem_of_list_fmap in H1 as (y1 & -> & H1). apply elem_of_list_fmap in H2 as (y2 & He & H2).
          destruct (B y1 H1) as [B1 B2]. destruct (Hcs _ (Hx _ H2)) as [_ Hk]. unfold key_use in He. injection He as E1 E2 E3.
          destruct Hk as [(Hm & Hk & Hsl)|(Hm & Hk & Hsl)]; rewrite Hk in E1; [specialize (B1 E1)|specialize (B2 E1)];
            rewrite E3, Hsl in *; lia.
        * pose proof (uses_nodup (lenN vals) a2 i d b r Hown) as U. fold cs in U. rewrite <- (do_calls_fst K cs), map_map in U. exact U.
      + intros t y [Ht|Ht]%elem_of_app; [by apply S|]. apply elem_of_list_singleton in Ht as ->. cbn [tl_calls]. unfold tl_slot.
        cbn [tl_interval]. intros Hy. destruct (Hcs _ (Hx _ Hy)) as [_ [(_ & _ & ->)|(_ & _ & ->)]]; lia.
      + intros Hk Ht. destruct A as [A1 A2]; [done|intros; apply Ht, elem_of_app; by left|].
        destruct (Ht (mkTick i x.2)) as [Hfit Hearly]; [apply elem_of_app; right; by apply elem_of_list_singleton|].
        unfold tl_slot in Hfit, Hearly. cbn [tl_interval] in *. unfold slot_fits in Hfit. change (2 ^ 32) with two32 in Hfit.
        assert (time a1 / 5 <= i / 5) as Q1 by (apply N.div_le_mono; lia).
        assert (i / 5 <= time a2 / 5) as Q2 by (apply N.div_le_mono; lia).
        assert (exists s, s <= i / 5 + 1 /\ i / 5 <= s /\ forall c, c ∈ cs -> call_slot c = s) as (s & Hs1 & Hs2 & Hs3).
        { destruct (decide (i mod 5 = 1)) as [H1|H1].
          - exists (i / 5). split_and!; [lia|lia|]. intros c Hc. destruct (Hcs c Hc) as [_ [(_&_&?)|(?&_)]]; [done|lia].
          - exists (i / 5 + 1). split_and!; [lia|lia|]. intros c Hc. destruct (Hcs c Hc) as [_ [(?&_)|(_&_&?)]]; [lia|done]. }
        destruct (calls_at X E K0 K _ cs s A1 Hs3) as [C1 C2]; [lia|by eapply not_early_mono|lia|].
        unfold x, tick_keys. cbn [fst snd]. rewrite as_u32_small by lia. split.
        * eapply keys_at_mono; [apply advance_all_at; [exact C1|eapply not_early_mono; [exact Hearly|lia]|lia]|lia].
        * intros y [Hy|Hy]%elem_of_app; [by apply A2|]. rewrite C2 in Hy. apply elem_of_list_fmap in Hy as (c & -> & _). done.
    - destruct IH as (R & B & D & S & A). split_and!; try done.
      + eapply reach_run; [exact R|]. cbn [ac_node start_actor]. apply run_one. by instantiate (1 := ev_restart).
      + intros Hk Ht. destruct (A Hk Ht) as [_ A2]. split; [by apply keys_at_start|done].
  Qed.

  Lemma as_u32_calls l : (forall t, t ∈ l -> slot_fits (tl_slot t)) ->
    (forall t x, t ∈ l -> x ∈ tl_calls t -> call_slot x.1 <= tl_slot t + 1) ->
    map (fun x => (call_kind x.1, call_validator x.1, as_u32 (call_slot x.1))) (all_calls l) = map key_use (all_calls l).
  Proof.
    intros Hf Hb. apply map_ext_in. intros x Hx. apply elem_of_list_In in Hx. unfold key_use. f_equal.
    apply elem_of_list_In, in_concat in Hx as (cs & Hc & Hx). apply in_map_iff in Hc as (t & <- & Ht).
    apply elem_of_list_In in Ht, Hx. specialize (Hf t Ht). specialize (Hb t x Ht Hx). unfold slot_fits in Hf.
    change (2 ^ 32) with two32 in Hf. apply as_u32_small. lia.
  Qed.

  (** ** The theorems *)
  Lemma once_pf a l a' K : reach (ac_node a) -> NoDup (cf_own C) -> key_life E C X (lenN vals) K0 a l a' K ->
    (forall t, t ∈ l -> slot_fits (tl_slot t)) ->
    NoDup (map (fun x => (call_kind x.1, call_validator x.1, as_u32 (call_slot x.1))) (all_calls l)).
  Proof.
    intros Hr Hown Hl Hf. destruct (life_facts _ _ _ _ Hr Hl) as (_ & _ & D & S & _). rewrite as_u32_calls by done. by apply D.
  Qed.
  Lemma signs_pf a l a' K x : reach (ac_node a) -> keys_ok K0 -> key_life E C X (lenN vals) K0 a l a' K ->
    (forall t, t ∈ l -> slot_fits (tl_slot t) /\ not_early K0 (tl_slot t)) ->
    x ∈ all_calls l -> x.2 = answer X E K0 x.1.
  Proof.
    intros Hr Hk Hl Hf Hx. destruct (life_facts _ _ _ _ Hr Hl) as (_ & _ & _ & _ & A). by apply A.
  Qed.
  Lemma votes_pf a l a1 K W a2 fx : reach (ac_node a) -> keys_ok K0 -> key_life E C X (lenN vals) K0 a l a1 K ->
    (forall t, t ∈ l -> slot_fits (tl_slot t) /\ not_early K0 (tl_slot t)) ->
    world_ok W -> signs_with E X K W -> actor_step E C W a1 m_tick = Ok (a2, fx) ->
    let i := wall_interval W a1 in
    time a1 < i -> i mod 5 = 1 -> cf_gate C = false \/ ac_syncing a2 = false ->
    slot_fits (i / 5) -> not_early K0 (i / 5) ->
    exists data, produce_attestation_data (nd_db (ac_node a2)) (i / 5) = Ok data /\
      votes_out fx = omap (fun v => mkSA v data <$> answer X E K0 (c_vote v data)) (cf_own C).
  Proof.
    cbn zeta. intros Hr Hk Hl Hf HW [Hsg _] Hs Hlt Hm Hg Hfit Hearly.
    destruct (life_facts _ _ _ _ Hr Hl) as (R & _ & _ & _ & A). destruct (A Hk Hf) as [A1 _].
    destruct (votes_cast E C gt vals Hgood Hvals W a1 a2 fx R Hne Hs Hlt Hm Hg) as (_ & data & Hd & ->).
    exists data. split; [done|]. unfold signed_votes. pose proof (produced_slot _ _ _ Hd) as Hps.
    apply list_omap_ext. unfold slot_fits in Hfit. change (2 ^ 32) with two32 in Hfit.
    apply Forall_Forall2_diag. apply Forall_true. intros v. f_equal. rewrite Hsg.
    pose proof (N.div_le_mono (time a1) (wall_interval W a1) 5 ltac:(lia) ltac:(lia)).
    apply (call_at X E K0 K _ (c_vote v data) (wall_interval W a1 / 5) A1); [done|lia|done|lia].
  Qed.

  (** ** Prepared for the next slot *)
  Lemma prepared_pf a l a1 K W a2 fx d b r : reach (ac_node a) -> keys_ok K0 -> key_life E C X (lenN vals) K0 a l a1 K ->
    (forall t, t ∈ l -> slot_fits (tl_slot t) /\ not_early K0 (tl_slot t)) ->
    tick_handled W a1 = true -> actor_step E C W a1 m_tick = Ok (a2, fx) ->
    let i := wall_interval W a1 in
    slot_fits (i / 5) -> not_early K0 (i / 5) ->
    (i mod 5 = 1 -> produce_attestation_data (nd_db (ac_node a2)) (i / 5) = Ok d) ->
    forall v p k, (tick_keys X (e_data E) K i (tick_calls C (lenN vals) a2 i d b r)).1 !! v = Some p ->
      k = kp_att p \/ k = kp_prop p -> i / 5 + 1 < key_until k ->
      key_from k <= i / 5 + 1 < key_from k + 131072.
  Proof.
      intros Hr Hk Hl Hf Hh Hs i Hfit Hearly Hd v p k Hv Hkp Hu.
      destruct (life_facts _ _ _ _ Hr Hl) as (R & _ & _ & _ & A).
      destruct (A Hk Hf) as [A1 _].
      destruct (handled_tick _ _ _ _ R Hs Hh) as (T1 & _ & _). fold i in T1.
      unfold slot_fits in Hfit. change (2 ^ 32) with two32 in Hfit.
      pose proof (N.div_le_mono (time a1) i 5 ltac:(lia) T1) as Q1.
      set (cs := tick_calls C (lenN vals) a2 i d b r) in *.
      assert (exists s, s <= i / 5 + 1 /\ i / 5 <= s /\ forall c, c ∈ cs -> call_slot c = s) as (s & Hs1 & Hs2 & Hs3).
      { destruct (decide (i mod 5 = 1)) as [H1|H1].
        - exists (i / 5). split_and!; [lia|lia|]. intros c Hc. apply tick_calls_in in Hc as [(_ & v0 & ->)|(H4 & _)]; [|lia].
          cbn. by eapply produced_slot, Hd.
        - exists (i / 5 + 1). split_and!; [lia|lia|]. intros c Hc. apply tick_calls_in in Hc as [(? & _)|(_ & _ & v0 & -> & _)]; [lia|done]. }
      destruct (calls_at X E K0 K _ cs s A1 Hs3) as [C1 _]; [lia|by eapply not_early_mono|lia|].
      unfold tick_keys in Hv. cbn [fst] in Hv. rewrite as_u32_small in Hv by lia.
      unfold advance_keys_to in Hv. rewrite lookup_fmap in Hv. specialize (C1 v).
      destruct (_ !! v) as [p1|] eqn:H1 in Hv; [|done]. cbn in Hv. injection Hv as <-. rewrite H1 in C1.
      destruct (K0 !! v) as [p0|] eqn:H0; [|done]. destruct (Hearly _ _ H0) as [E1 E2]. destruct C1 as [Ca Cp]. cbn [kp_att kp_prop] in *.
      assert (forall k0 k1, key_from k0 <= i / 5 -> key_at k0 k1 (N.max (time a1 / 5 + 1) s) ->
        i / 5 + 1 < key_until (advance_key k1 (i / 5 + 1)).1 ->
        key_from (advance_key k1 (i / 5 + 1)).1 <= i / 5 + 1 < key_from (advance_key k1 (i / 5 + 1)).1 + 131072) as G.
      { intros k0 k1 He Hat Hu1. destruct (key_at_advance _ _ _ (i / 5 + 1) Hat) as [Ha Ho]; [lia|lia|].
        destruct Hat as (_ & Hen & _ & Hk1 & _). destruct (advance_key_spec k1 (i / 5 + 1) Hk1) as [_ Me _ _ _ Mp _ _].
        apply Mp, Ho. unfold key_until in *. rewrite Me, Hen in Hu1. exact Hu1. }
      destruct Hkp as [->| ->]; [by apply (G (kp_att p0))|by apply (G (kp_prop p0))].
  Qed.
End Life.

Lemma window_pf k slot : key_ok k ->
  exists k' ok, advance_loop (advance_fuel k) k slot = Some (k', ok) /\ advance_key k slot = (k', ok) /\
    k_id k' = k_id k /\ k_end k' = k_end k /\
    (ok = true <-> key_from k <= slot < key_until k) /\
    (ok = true -> key_from k' <= slot < key_from k' + 131072 /\ (k' = k \/ key_from k' + 65536 <= slot)) /\
    (ok = false -> key_from k' + 131072 = key_until k').
Proof.
  intros Hk. destruct (advance_loop_spec (advance_fuel k) k slot Hk) as (k' & ok & H & M); [unfold advance_fuel; lia|].
  exists k', ok. unfold advance_key. rewrite H. destruct M. unfold key_from, key_until in *.
  split_and!; try done.
  - intros Ho. pose proof (mv_prep0 Ho). apply mv_true0 in Ho. split; [lia|]. destruct mv_least0 as [?|[?|?]]; [by left|lia|right; lia].
  - intros Ho. specialize (mv_false0 Ho). lia.
Qed.
Lemma votes_in_pf E C gt vals (H1 : good_hash (e_header E)) (H2 : lenN vals <= VALIDATOR_REGISTRY_LIMIT) (H3 : vals <> [])
  X K0 a l a1 K W a2 fx : reachable E gt vals (ac_node a) -> keys_ok K0 -> key_life E C X (lenN vals) K0 a l a1 K ->
  (forall t, t ∈ l -> slot_fits (tl_slot t) /\ not_early K0 (tl_slot t)) ->
  world_ok W -> signs_with E X K W -> actor_step E C W a1 m_tick = Ok (a2, fx) ->
  let i := wall_interval W a1 in
  db_time (nd_db (ac_node a1)) < i -> i mod 5 = 1 -> cf_gate C = false \/ ac_syncing a2 = false ->
  slot_fits (i / 5) -> not_early K0 (i / 5) ->
  exists data, produce_attestation_data (nd_db (ac_node a2)) (i / 5) = Ok data /\
    forall sa, sa ∈ votes_out fx <->
      sa_validator sa ∈ cf_own C /\ sa_data sa = data /\
      exists p, K0 !! sa_validator sa = Some p /\ i / 5 < key_until (kp_att p) /\
        X (k_id (kp_att p)) (i / 5) (e_data E data) = Some (sa_sig sa).
Proof.
  cbn zeta. intros Hr Hk Hl Hf HW Hsg Hs Hlt Hm Hg Hfit He.
  destruct (votes_pf E C gt vals H1 H2 H3 X K0 a l a1 K W a2 fx Hr Hk Hl Hf HW Hsg Hs Hlt Hm Hg Hfit He) as (d & Hd & ->).
  exists d. split; [done|]. pose proof (produced_slot _ _ _ Hd) as Hps. intros sa. rewrite elem_of_list_omap. split.
  - intros (v & Hv & Hx). unfold answer in Hx. cbn [call_validator call_slot call_key call_message] in Hx. rewrite Hps in Hx.
    destruct (K0 !! v) as [p|] eqn:Hp; [|done]. destruct (N.ltb_spec (wall_interval W a1 / 5) (key_until (kp_att p))) as [Hlt'|]; [|done].
    destruct (X _ _ _) as [sig|] eqn:Hsig; [|done]. cbn in Hx. injection Hx as <-. cbn [sa_validator sa_data sa_sig].
    split_and!; [done|done|]. by exists p.
  - intros (Hv & Hda & p & Hp & Hu & Hsig). exists (sa_validator sa). split; [done|]. unfold answer.
    cbn [call_validator call_slot call_key call_message]. rewrite Hps, Hp, (proj2 (N.ltb_lt _ _) Hu), Hsig. cbn. subst d. by destruct sa.
Qed.
