(** Gossip topics: proofs. *)
From Coq Require Import Ascii String.
From Verif Require Export Gossip WireSpec WireProofs ActorSpec Lib.
Local Open Scope N_scope.

(** *** Splitting *)
Fixpoint without (c : ascii) (s : string) : bool :=
  match s with EmptyString => true | String a s' => negb (Ascii.eqb a c) && without c s' end.
Lemma split_app c (k rest : string) : without c k = true -> split_on c (k +:+ String c rest) = k :: split_on c rest.
Proof.
  induction k as [|a k IH]; intros H.
  - change ("" +:+ String c rest) with (String c rest). cbn [split_on]. by rewrite Ascii.eqb_refl.
  - cbn [without] in H. apply andb_prop in H as [H1 H2].
    change (String a k +:+ String c rest) with (String a (k +:+ String c rest)). cbn [split_on].
    destruct (Ascii.eqb a c); [done|]. by rewrite IH.
Qed.
Lemma without_app c (k l : string) : without c (k +:+ l) = without c k && without c l.
Proof. induction k as [|a k IH]; [done|]. change (String a k +:+ l) with (String a (k +:+ l)). cbn [without]. rewrite IH. by rewrite andb_assoc. Qed.
Lemma digit_slash d : Ascii.eqb (pretty_N_char d) "/" = false.
Proof. by destruct d as [|[[[|[]|]|[|[]|]|]|[[|[]|]|[|[]|]|]|]]. Qed.
Lemma pretty_without x s : without "/" s = true -> without "/" (pretty_N_go x s) = true.
Proof.
  revert s. induction (N.lt_wf_0 x) as [x _ IH]. intros s Hs. destruct (N.eq_dec x 0) as [->|Hx]; [by rewrite pretty_N_go_0|].
  rewrite pretty_N_go_step by lia. apply IH; [apply N.div_lt; lia|]. cbn [without]. by rewrite digit_slash.
Qed.
Lemma pretty_no_slash (x : N) : without "/" (pretty x) = true.
Proof. unfold pretty, pretty_N. case_decide; [done|]. by apply pretty_without. Qed.
Lemma kind_of_topic k : without "/" k = true -> split_on "/" (topic_of_kind k) !! 3%nat = Some k.
Proof.
  intros Hk. unfold topic_of_kind. change ("/leanconsensus/" +:+ FORK_DIGEST +:+ "/" +:+ k +:+ "/ssz_snappy")
    with ("" +:+ String "/" ("leanconsensus" +:+ String "/" (FORK_DIGEST +:+ String "/" (k +:+ String "/" "ssz_snappy")))).
  rewrite !split_app by done. reflexivity.
Qed.
Lemma topic_inj k l : without "/" k = true -> without "/" l = true -> topic_of_kind k = topic_of_kind l -> k = l.
Proof. intros Hk Hl H. apply (f_equal (fun t => split_on "/" t !! 3%nat)) in H. rewrite !kind_of_topic in H by done. by injection H. Qed.
Lemma att_no_slash (i : N) : without "/" (ATTESTATION_SUBNET_TOPIC_PREFIX +:+ "_" +:+ pretty i) = true.
Proof. rewrite !without_app, pretty_no_slash. done. Qed.

Lemma C54_topics_pf i j :
  (attestation_subnet_topic i = attestation_subnet_topic j -> i = j) /\
  attestation_subnet_topic i <> block_topic /\ attestation_subnet_topic i <> aggregation_topic /\ block_topic <> aggregation_topic.
Proof.
  split_and!.
  - intros H. apply topic_inj in H; [|apply att_no_slash..]. cbn in H. injection H as H. by apply (inj pretty) in H.
  - intros H. apply topic_inj in H; [|apply att_no_slash|done]. done.
  - intros H. apply topic_inj in H; [|apply att_no_slash|done]. done.
  - done.
Qed.
Lemma classify_block : classify block_topic = Some KBlock.
Proof. reflexivity. Qed.
Lemma classify_aggregation : classify aggregation_topic = Some KAggregation.
Proof. reflexivity. Qed.
Lemma classify_attestation i : classify (attestation_subnet_topic i) = Some KAttestation.
Proof. unfold classify, attestation_subnet_topic. by rewrite kind_of_topic by apply att_no_slash. Qed.

(** *** Subscriptions *)
Lemma C54_subnets_pf vs c agg extra : 1 <= c -> exists S, attestation_subscription_subnets vs c agg extra = Ok S /\
  forall k, k ∈ S <->
    (exists v, v ∈ vs /\ k = v mod c) \/
    (agg = true /\ k ∈ default [] extra) \/
    (agg = true /\ vs = [] /\ default [] extra = [] /\ k = 0).
Proof.
  intros Hc. unfold attestation_subscription_subnets. rewrite (proj2 (N.eqb_neq c 0)) by lia.
  set (S0 := list_to_set (map (fun vid => vid mod c) vs) : gset N).
  assert (match vs with [] => Ok ∅ | _ :: _ => Ok S0 end = (Ok S0 : res unit (gset N))) as -> by (by destruct vs).
  cbn [rbind]. assert (forall k, k ∈ S0 <-> exists v, v ∈ vs /\ k = v mod c) as H0.
  { intros k. unfold S0. rewrite elem_of_list_to_set, elem_of_map. split; intros (v & ? & ?); eauto. }
  destruct agg.
  - set (S1 := match extra with Some ids => S0 ∪ list_to_set ids | None => S0 end).
    assert (forall k, k ∈ S1 <-> (exists v, v ∈ vs /\ k = v mod c) \/ k ∈ default [] extra) as H1.
    { intros k. rewrite <- H0. unfold S1. destruct extra as [ids|]; cbn [default from_option].
      - by rewrite elem_of_union, elem_of_list_to_set.
      - split; [by left|]. intros [?|H]; [done|]. by apply not_elem_of_nil in H. }
    eexists. split; [reflexivity|]. intros k. case_bool_decide as He.
    + rewrite elem_of_singleton. assert (forall x, x ∉ S1) as Hno by (rewrite He; set_solver).
      assert (vs = []) as ->. { destruct vs as [|v vs]; [done|]. exfalso. apply (Hno (v mod c)), H1. left. exists v. split; [left|done]. }
      assert (default [] extra = []) as Hx. { destruct (default [] extra) as [|x l] eqn:E; [done|]. exfalso. apply (Hno x), H1. right. rewrite ?E. left. }
      rewrite Hx. split.
      * intros ->. right. right. done.
      * intros [(v & Hv & _)|[[_ H]|(_ & _ & _ & ->)]]; [by apply not_elem_of_nil in Hv|by apply not_elem_of_nil in H|done].
    + rewrite H1. split; [intros [?|?]; [by left|right; left; done]|]. intros [?|[[_ ?]|(_ & -> & Hx & ->)]]; [by left|by right|].
      exfalso. apply He. apply set_eq. intros x. rewrite H1, Hx. split.
      * intros [(v & Hv & _)|H]; by apply not_elem_of_nil in Hv || apply not_elem_of_nil in H.
      * set_solver.
  - eexists. split; [reflexivity|]. intros k. rewrite H0. split; [by left|]. by intros [?|[[? _]|(? & _)]].
Qed.
Lemma topics_lookup S k t : attestation_topics S !! k = Some t -> t = attestation_subnet_topic k.
Proof.
  unfold attestation_topics. intros H. apply lookup_set_to_map in H as (y & Hy & H'); [|by intros ????]. by injection H' as -> <-.
Qed.
Lemma subscribed_att S k : attestation_subnet_topic k ∈ subscribed_topics S <-> k ∈ S.
Proof.
  unfold subscribed_topics. destruct (C54_topics_pf k k) as (_ & H1 & H2 & _).
  rewrite !elem_of_cons, elem_of_map. split.
  - intros [?|[?|(j & Hj & Hin)]]; [done|done|]. apply (proj1 (C54_topics_pf k j)) in Hj as ->. by apply elem_of_elements in Hin.
  - intros Hk. right. right. exists k. split; [done|]. by apply elem_of_elements.
Qed.

Section Gossip.
  Context {B G A : Type} (validator_of : A -> N).
  Context (b_ssz : B -> bytes) (g_ssz : G -> bytes) (a_ssz : A -> bytes).
  Context (b_of_ssz : bytes -> option B) (g_of_ssz : bytes -> option G) (a_of_ssz : bytes -> option A).
  Context (raw_compress : bytes -> bytes) (raw_decompress : bytes -> option bytes) (raw_len : bytes -> option N).
  Notation publish := (publish validator_of b_ssz g_ssz a_ssz raw_compress).
  Notation receive := (handle_gossipsub_message b_of_ssz g_of_ssz a_of_ssz raw_decompress raw_len).

  (** The bytes of a message. *)
  Definition ssz (m : Msg B G A) : bytes :=
    match m with MBlock b => b_ssz b | MAggregation g => g_ssz g | MAttestation a => a_ssz a end.

  Lemma C54_vote_topic_pf S c v : 1 <= c -> lenN (a_ssz v) < 2 ^ 32 ->
    exists z, publish S c (MAttestation v) = Ok (attestation_subnet_topic (validator_of v mod c), z) /\ validator_of v mod c < c.
  Proof using.
    intros Hc Hl. unfold publish, compress_message. rewrite (proj2 (N.eqb_neq c 0)) by lia.
    rewrite (proj2 (N.leb_gt two32 _)) by done. cbn [rbind]. eexists. split; [|apply N.mod_lt; lia].
    f_equal. f_equal. destruct (attestation_topics S !! _) as [t|] eqn:Ht; [|done]. cbn. by eapply topics_lookup.
  Qed.
  Lemma publish_ok S c m : 1 <= c -> lenN (ssz m) < 2 ^ 32 -> exists t, publish S c m = Ok (t, raw_compress (ssz m)) /\
    match m with MBlock _ => t = block_topic | MAggregation _ => t = aggregation_topic
                | MAttestation v => t = attestation_subnet_topic (validator_of v mod c) end.
  Proof using.
    intros Hc Hl. destruct m as [b|g|v]; cbn [ssz] in *; unfold Gossip.publish, compress_message;
      try (rewrite (proj2 (N.leb_gt two32 _)) by done).
    - cbn [rbind]. by eexists.
    - cbn [rbind]. by eexists.
    - rewrite (proj2 (N.eqb_neq c 0)) by lia. cbn [rbind]. eexists. split; [reflexivity|].
      destruct (attestation_topics S !! _) as [t|] eqn:Ht; [|done]. cbn. by eapply topics_lookup.
  Qed.
  Lemma received crc S c m : snappy_ok raw_compress raw_decompress raw_len crc ->
    (forall b, b_of_ssz (b_ssz b) = Some b) -> (forall g, g_of_ssz (g_ssz g) = Some g) -> (forall a, a_of_ssz (a_ssz a) = Some a) ->
    1 <= c -> lenN (ssz m) < 2 ^ 32 ->
    exists t z, publish S c m = Ok (t, z) /\
      receive t z = if lenN (ssz m) <=? 10 * 1024 * 1024 then Some m else None.
  Proof using.
    intros Hsn Hb Hg Ha Hc Hl. destruct (publish_ok S c m Hc Hl) as (t & Hp & Ht). eexists _, _. split; [exact Hp|].
    assert (decompress_message raw_decompress raw_len (raw_compress (ssz m)) = if lenN (ssz m) <=? 10 * 1024 * 1024 then Some (ssz m) else None) as Hd.
    { unfold decompress_message. rewrite (sn_len _ _ _ _ Hsn), (sn_decompress _ _ _ _ Hsn), N.ltb_antisym. by destruct (_ <=? _). }
    unfold handle_gossipsub_message. rewrite Hd. destruct m as [b|g|v]; subst t;
      rewrite ?classify_block, ?classify_aggregation, ?classify_attestation; destruct (_ <=? _); cbn [mbind option_bind ssz]; try done.
    - by rewrite Hb.
    - by rewrite Hg.
    - by rewrite Ha.
  Qed.
  Lemma kind_kept t z m : receive t z = Some m ->
    match m with MBlock _ => classify t = Some KBlock | MAggregation _ => classify t = Some KAggregation
               | MAttestation _ => classify t = Some KAttestation end.
  Proof using.
    unfold handle_gossipsub_message. destruct (classify t) as [[]|]; [..|done]; destruct (decompress_message _ _ _); cbn; [|done| |done| |done].
    - by destruct (b_of_ssz _) as [|]; [intros [= <-]|].
    - by destruct (g_of_ssz _) as [|]; [intros [= <-]|].
    - by destruct (a_of_ssz _) as [|]; [intros [= <-]|].
  Qed.
  Lemma kind_of_message S t z m : receive t z = Some m -> t ∈ subscribed_topics S ->
    match m with
    | MBlock _ => t = block_topic
    | MAggregation _ => t = aggregation_topic
    | MAttestation _ => exists k, k ∈ S /\ t = attestation_subnet_topic k
    end.
  Proof using.
    intros H Hin. apply kind_kept in H. unfold subscribed_topics in Hin. rewrite !elem_of_cons, elem_of_map in Hin.
    destruct Hin as [-> |[-> |(k & -> & Hk)]].
    - destruct m; [done|by rewrite classify_block in H..].
    - destruct m; [by rewrite classify_aggregation in H|done|by rewrite classify_aggregation in H].
    - apply elem_of_elements in Hk. destruct m; [by rewrite classify_attestation in H..|]. by exists k.
  Qed.
  Lemma too_large t z n : raw_len z = Some n -> 10 * 1024 * 1024 < n -> receive t z = None.
  Proof using.
    intros Hl Hn. unfold handle_gossipsub_message.
    assert (decompress_message raw_decompress raw_len z = None) as ->; [|by destruct (classify t) as [[]|]].
    unfold decompress_message. rewrite Hl. apply N.ltb_lt in Hn. unfold MAX_PAYLOAD_SIZE. by rewrite Hn.
  Qed.
End Gossip.

(** Votes expected on the subscribed subnets. *)
Lemma expected_heard S n c v : v < n ->
  N.to_nat v ∈ assigned n c (elements S) <-> attestation_subnet_topic (v mod c) ∈ subscribed_topics S.
Proof.
  intros Hv. rewrite subscribed_att. unfold assigned. rewrite elem_of_list_filter, elem_of_elements, N2Nat.id, elem_of_seq.
  split; [by intros []|]. intros H. split; [done|lia].
Qed.

(** Toy messages for the examples: a vote is its validator and a value. *)
Definition t_pub := publish (B := N) (G := N) (A := N * N) fst (fun b => [b]) (fun g => [g]) (fun a => [a.1; a.2]) toy_compress.
Definition t_rec := handle_gossipsub_message (B := N) (G := N) (A := N * N)
  (fun l => match l with [b] => Some b | _ => None end) (fun l => match l with [b] => Some b | _ => None end)
  (fun l => match l with [a; b] => Some (a, b) | _ => None end) toy_decompress toy_len.
