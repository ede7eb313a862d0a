(** Lives with keys: windows that move, keys that run out, keys used too early. *)
From Verif Require Export XmssProofs DutyExamples.
Local Open Scope N_scope.

Definition kx (id epoch : N) (msg : H256) : option N := Some (id * 1000000 + epoch).
Definition kc : Config := mkConfig [0; 1] 1 [0] false.
(** A world whose signer is the key manager [K]; blocks are built on the genesis block. *)
Definition kw (K : KeyManager) (now : N) : World :=
  mkWorld now now false elements (fun v d => (sign_attestation kx (e_data ze) K v d).2)
    (fun _ slot v => let sb := x_sb (x_block ze (stored_anchor (e_state ze) z_gen) slot []) in
       match (sign_block_root kx K v (as_u32 slot) (block_root (e_header ze) (e_body ze) (sb_block sb))).2 with
       | Some _ => Some sb | None => None end)
    (fun _ _ => []) (fun _ _ _ => true).
Lemma kw_ok K now : world_ok (kw K now).
Proof. by intros s. Qed.
Lemma kw_signs K now : signs_with ze kx K (kw K now).
Proof.
  split; [done|]. intros n slot v sb. cbn [w_build kw].
  generalize (x_sb (x_block ze (stored_anchor (e_state ze) z_gen) slot [])). intros sb0. cbn zeta.
  destruct (sign_block_root _ _ _ _ _).2 eqn:H; [|done]. intros [= <-]. by eexists.
Qed.

(** Ticks at the given times; [None]: a restart. *)
Fixpoint kl_run (K0 : KeyManager) (a : Actor) (K : KeyManager) (l : list TickLog) (ts : list (option N))
  : res unit (Actor * KeyManager * list TickLog) :=
  match ts with
  | [] => Ok (a, K, l)
  | None :: ts' => kl_run K0 (start_actor (start_node (nd_db (ac_node a)))) K0 l ts'
  | Some now :: ts' =>
      let W := kw K now in
      let! x := actor_step ze kc W a m_tick in
      if tick_handled W a then
        let i := wall_interval W a in
        match produce_attestation_data (nd_db (ac_node x.1)) (i / 5) with
        | Ok d =>
            let y := tick_keys kx (e_data ze) K i (tick_calls kc (lenN x_vals) x.1 i d true 7) in
            kl_run K0 x.1 y.1 (l ++ [mkTick i y.2]) ts'
        | _ => Err tt
        end
      else kl_run K0 x.1 K l ts'
  end.
Lemma kl_sound K0 a0 ts a K l a' K' l' : key_life ze kc kx (lenN x_vals) K0 a0 l a K ->
  kl_run K0 a K l ts = Ok (a', K', l') -> key_life ze kc kx (lenN x_vals) K0 a0 l' a' K'.
Proof.
  revert a K l. induction ts as [|[now|] ts IH]; intros a K l Hl; cbn [kl_run].
  - by intros [= <- <- <-].
  - intros H. apply rbind_Ok in H as ([a1 fx] & H1 & H). cbn [fst] in H.
    destruct (tick_handled (kw K now) a) eqn:Hh.
    + destruct (produce_attestation_data _ _) as [d| |] eqn:Hd; [|done|done].
      revert H. apply IH. eapply kl_tick; [exact Hl|apply kw_ok|apply kw_signs|exact Hh|exact H1|]. intros _. exact Hd.
    + revert H. apply IH. eapply kl_other; [exact Hl|apply kw_ok|by right|exact H1].
  - apply IH. by eapply kl_restart.
Qed.
Definition kl_log (K0 : KeyManager) (ts : list (option N)) : list TickLog :=
  match kl_run K0 za0 K0 [] ts with Ok x => x.2 | _ => [] end.
Definition kl_end (K0 : KeyManager) (ts : list (option N)) : Actor :=
  match kl_run K0 za0 K0 [] ts with Ok x => x.1.1 | _ => za0 end.
Definition kl_keys (K0 : KeyManager) (ts : list (option N)) : KeyManager :=
  match kl_run K0 za0 K0 [] ts with Ok x => x.1.2 | _ => K0 end.
Lemma kl_ok K0 ts : is_ok (kl_run K0 za0 K0 [] ts) = true ->
  key_life ze kc kx (lenN x_vals) K0 za0 (kl_log K0 ts) (kl_end K0 ts) (kl_keys K0 ts).
Proof.
  unfold kl_log, kl_end, kl_keys. intros H. destruct (kl_run K0 za0 K0 [] ts) as [[[a K] l]| |] eqn:Hr; [|done|done].
  eapply kl_sound; [apply kl_start|exact Hr].
Qed.

(** Validator 0 can vote in the slots below 3 * 65536 and propose below 2 * 65536;
    validator 1 can do both below 4 * 65536. *)
Definition kk : KeyManager :=
  <[0 := mkPair (mkKey 10 0 3) (mkKey 11 0 2)]> (<[1 := mkPair (mkKey 12 0 4) (mkKey 13 0 4)]> ∅).
(** Votes in slot 1, a block for slot 3, a restart, votes in slots 131072 and 196608, a
    block for slot 196609. *)
Definition kk_t : list (option N) :=
  [Some (x_at 1 1); Some (x_at 2 4); Some (x_at 3 1); None; Some (x_at 3 1); Some (x_at 131072 1);
   Some (x_at 196608 1); Some (x_at 196608 4)].
Definition show_call (x : Call * option N) : bool * N * N * option N :=
  (call_kind x.1, call_validator x.1, call_slot x.1, x.2).

(** The windows start at slot 131072. *)
Definition ke : KeyManager := <[0 := mkPair (mkKey 10 2 6) (mkKey 11 2 6)]> (<[1 := mkPair (mkKey 12 0 6) (mkKey 13 0 6)]> ∅).
Definition ke_t : list (option N) := [Some (x_at 1 0); Some (x_at 131073 1); None; Some (x_at 131074 1)].
Lemma x_vals_ok : lenN x_vals <= VALIDATOR_REGISTRY_LIMIT /\ x_vals <> [].
Proof. split; [vm_compute; discriminate|discriminate]. Qed.
Lemma kk_life : key_life ze kc kx (lenN x_vals) kk za0 (kl_log kk kk_t) (kl_end kk kk_t) (kl_keys kk kk_t).
Proof. apply kl_ok. vm_compute. reflexivity. Qed.
Lemma ke_life : key_life ze kc kx (lenN x_vals) ke za0 (kl_log ke ke_t) (kl_end ke ke_t) (kl_keys ke ke_t).
Proof. apply kl_ok. vm_compute. reflexivity. Qed.
Lemma two_keys (p q : KeyPair) v r : (<[0 := p]> (<[1 := q]> ∅) : KeyManager) !! v = Some r -> (v = 0 /\ r = p) \/ (v = 1 /\ r = q).
Proof.
  destruct (decide (v = 0)) as [->|H0]; [rewrite lookup_insert; intros [= <-]; by left|].
  rewrite lookup_insert_ne by done. destruct (decide (v = 1)) as [->|H1]; [rewrite lookup_insert; intros [= <-]; by right|].
  rewrite lookup_insert_ne by done. by rewrite lookup_empty.
Qed.
Lemma kk_ok : keys_ok kk.
Proof. intros v p H. apply two_keys in H as [[_ ->]|[_ ->]]; split; vm_compute; discriminate. Qed.
Lemma ke_ok : keys_ok ke.
Proof. intros v p H. apply two_keys in H as [[_ ->]|[_ ->]]; split; vm_compute; discriminate. Qed.
Lemma kk_early s : not_early kk s.
Proof. intros v p H. apply two_keys in H as [[_ ->]|[_ ->]]; split; apply N.le_0_l. Qed.
Lemma fits_all l : forallb (fun t => tl_slot t + 1 <? 2 ^ 32) l = true -> forall t, t ∈ l -> slot_fits (tl_slot t).
Proof. intros H t Ht. rewrite forallb_forall in H. apply elem_of_list_In, H, N.ltb_lt in Ht. exact Ht. Qed.
Definition ke_call : Call * option N :=
  match all_calls (kl_log ke ke_t) with x :: _ => x | [] => (c_block 0 0 0, None) end.
Lemma refuted_pf :
  exists E C gt vals X K0 a l a' K c p,
    good_hash (e_header E) /\ reachable E gt vals (ac_node a) /\ keys_ok K0 /\
    key_life E C X (lenN vals) K0 a l a' K /\ (forall t, t ∈ l -> slot_fits (tl_slot t)) /\
    (forall id epoch msg, is_Some (X id epoch msg)) /\
    K0 !! call_validator c = Some p /\ key_from (call_key c p) <= call_slot c < key_until (call_key c p) /\
    (c, None) ∈ all_calls l.
Proof.
  exists ze, kc, 1000, x_vals, kx, ke, za0, (kl_log ke ke_t), (kl_end ke ke_t), (kl_keys ke ke_t), ke_call.1, (mkPair (mkKey 10 2 6) (mkKey 11 2 6)).
  split; [exact ze_good|]. split; [exact z_reach0|]. split; [exact ke_ok|]. split; [exact ke_life|].
  split; [apply fits_all; vm_compute; reflexivity|]. split; [by eexists|].
  split; [vm_compute; reflexivity|]. split; [split; vm_compute; [discriminate|reflexivity]|].
  assert (forallb (fun x => match x.2 with Some _ => false | None => true end) (take 1 (all_calls (kl_log ke ke_t))) = true) as H by (vm_compute; reflexivity).
  assert (length (all_calls (kl_log ke ke_t)) = 4%nat) as Hl by (vm_compute; reflexivity).
  unfold ke_call. destruct (all_calls (kl_log ke ke_t)) as [|[c [r|]] l]; [done|done|left].
Qed.

(** Keys for all 2^32 epochs; a vote and a block for slot 3 and for slot 3 * 2^32 + 3. *)
Definition kz : KeyManager := <[0 := mkPair (mkKey 10 0 65536) (mkKey 11 0 65536)]> (<[1 := mkPair (mkKey 12 0 65536) (mkKey 13 0 65536)]> ∅).
Definition kz_t : list (option N) := [Some (x_at 2 4); Some (x_at 3 1); Some (x_at 12884901890 4); Some (x_at 12884901891 1)].
Lemma kz_life : key_life ze kc kx (lenN x_vals) kz za0 (kl_log kz kz_t) (kl_end kz kz_t) (kl_keys kz kz_t).
Proof. apply kl_ok. vm_compute. reflexivity. Qed.
Lemma kz_ok : keys_ok kz.
Proof. intros v p H. apply two_keys in H as [[_ ->]|[_ ->]]; split; vm_compute; discriminate. Qed.
Lemma wraps_pf :
  exists E C gt vals X K0 a l a' K,
    good_hash (e_header E) /\ reachable E gt vals (ac_node a) /\ keys_ok K0 /\
    key_life E C X (lenN vals) K0 a l a' K /\
    forall kind, exists c c' id epoch sig sig',
      call_kind c = kind /\ call_kind c' = kind /\ call_slot c < call_slot c' /\
      X id epoch (call_message E c) = Some sig /\ X id epoch (call_message E c') = Some sig' /\
      (c, Some sig) ∈ all_calls l /\ (c', Some sig') ∈ all_calls l.
Proof.
  exists ze, kc, 1000, x_vals, kx, kz, za0, (kl_log kz kz_t), (kl_end kz kz_t), (kl_keys kz kz_t).
  split; [exact ze_good|]. split; [exact z_reach0|]. split; [exact kz_ok|]. split; [exact kz_life|].
  assert (map show_call (all_calls (kl_log kz kz_t)) =
    [(false, 0, 3, Some 11000003); (true, 0, 3, Some 10000003); (true, 1, 3, Some 12000003);
     (false, 0, 12884901891, Some 11000003); (true, 0, 12884901891, Some 10000003); (true, 1, 12884901891, Some 12000003)])
    as H by (vm_compute; reflexivity).
  destruct (all_calls (kl_log kz kz_t)) as [|[c1 r1] [|[c2 r2] [|[c3 r3] [|[c4 r4] [|[c5 r5] l]]]]]; try done.
  cbn [map] in H. unfold show_call in H. cbn [fst snd] in H. injection H as A1 A2 A3 -> B1 B2 B3 -> _ _ _ _ D1 D2 D3 -> F1 F2 F3 -> _.
  intros [|].
  - exists c2, c5, 10, 3, 10000003, 10000003. split_and!; try done; [by rewrite B3, F3| |]; rewrite !elem_of_cons; auto 10.
  - exists c1, c4, 11, 3, 11000003, 11000003. split_and!; try done; [by rewrite A3, D3| |]; rewrite !elem_of_cons; auto 10.
Qed.
