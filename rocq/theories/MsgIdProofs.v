(** Proofs about message identifiers (MsgId.v). *)
From Coq Require Import Ascii String.
From Verif Require Import Lib MsgId.
Local Open Scope N_scope.

Lemma le_bytes_length k n : length (le_bytes k n) = k.
Proof. revert n; induction k; intros n; cbn; auto. Qed.
Lemma le_bytes_inj k n m : n < 256 ^ N.of_nat k -> m < 256 ^ N.of_nat k -> le_bytes k n = le_bytes k m -> n = m.
Proof.
  revert n m; induction k as [|k IH]; intros n m Hn Hm H.
  - change (256 ^ N.of_nat 0) with 1 in *. lia.
  - cbn in H. injection H as H1 H2.
    replace (N.of_nat (S k)) with (N.succ (N.of_nat k)) in * by lia.
    rewrite N.pow_succ_r' in *.
    apply IH in H2; [lia| |]; apply N.div_lt_upper_bound; lia.
Qed.
Lemma as_bytes_length s : length (as_bytes s) = String.length s.
Proof. unfold as_bytes. rewrite map_length. induction s; cbn; auto. Qed.
Lemma as_bytes_inj s t : as_bytes s = as_bytes t -> s = t.
Proof.
  unfold as_bytes. revert t; induction s as [|a s IH]; intros [|b t]; cbn; try done.
  intros H. injection H as H1 H2. apply IH in H2. subst.
  f_equal. rewrite <- (ascii_N_embedding a), <- (ascii_N_embedding b). congruence.
Qed.

Section MsgId.
  Context (raw_decompress : bytes -> option bytes) (raw_len : bytes -> option N).
  Context (sha : bytes -> bytes).
  Local Notation dec := (decompress_message raw_decompress raw_len).
  Local Notation pre := (id_preimage raw_decompress raw_len).
  Local Notation mid := (compute_message_id raw_decompress raw_len sha).

  (** What is hashed determines the topic and the content. *)
  Lemma preimage_inj t d t' d' :
    N.of_nat (String.length t) < 2 ^ 64 -> N.of_nat (String.length t') < 2 ^ 64 ->
    pre t d = pre t' d' ->
    t = t' /\ ((exists u, dec d = Some u /\ dec d' = Some u) \/ (dec d = None /\ dec d' = None /\ d = d')).
  Proof.
    intros Hl Hl' H. change (2 ^ 64) with (256 ^ N.of_nat 8) in *. unfold id_preimage in H.
    assert (Hbody : forall p p', le_bytes 8 (N.of_nat (String.length t)) ++ as_bytes t ++ p =
                                 le_bytes 8 (N.of_nat (String.length t')) ++ as_bytes t' ++ p' ->
                                 t = t' /\ p = p').
    { intros p p' Hp. apply app_inj_1 in Hp as [H1 H2]; [|by rewrite !le_bytes_length].
      apply le_bytes_inj in H1; [|done..].
      apply app_inj_1 in H2 as [H2 H3]; [|rewrite !as_bytes_length; lia].
      split; [by apply as_bytes_inj|done]. }
    destruct (dec d) as [u|] eqn:Hd, (dec d') as [u'|] eqn:Hd';
      (apply app_inj_1 in H as [H1 H2]; [|done]); try discriminate H1;
      apply Hbody in H2 as [-> ->]; eauto.
  Qed.
  Lemma preimage_content t d d' : (exists u, dec d = Some u /\ dec d' = Some u) -> pre t d = pre t d'.
  Proof. intros (u & H1 & H2). unfold id_preimage. by rewrite H1, H2. Qed.

  Lemma handed_seen m seen l : m ∈ handed_on raw_decompress raw_len sha seen l -> mid m.1 m.2 ∉ seen.
  Proof.
    revert seen; induction l as [|x l IH]; intros seen; cbn; [intros H; by apply elem_of_nil in H|].
    case_bool_decide as Hi; [apply IH|].
    rewrite elem_of_cons. intros [->|H]; [done|]. apply IH in H. rewrite elem_of_cons in H. tauto.
  Qed.
  Lemma handed_arrived m seen l : m ∈ handed_on raw_decompress raw_len sha seen l -> m ∈ l.
  Proof.
    revert seen; induction l as [|x l IH]; intros seen; cbn; [done|].
    rewrite elem_of_cons. case_bool_decide; [eauto|]. rewrite elem_of_cons. intros [->|H1]; eauto.
  Qed.
  Lemma handed_nodup seen l : NoDup (map (fun m => mid m.1 m.2) (handed_on raw_decompress raw_len sha seen l)).
  Proof.
    revert seen; induction l as [|x l IH]; intros seen; cbn; [constructor|].
    case_bool_decide; [apply IH|]. cbn. constructor; [|apply IH].
    intros H1. apply elem_of_list_fmap in H1 as (y & H1 & H2).
    apply handed_seen in H2. apply H2. rewrite <- H1. left.
  Qed.
  Lemma handed_first m seen l : m ∈ l ->
    mid m.1 m.2 ∈ seen \/ exists m', m' ∈ handed_on raw_decompress raw_len sha seen l /\ mid m'.1 m'.2 = mid m.1 m.2.
  Proof.
    revert seen; induction l as [|x l IH]; intros seen Hm; cbn; [by apply elem_of_nil in Hm|].
    rewrite elem_of_cons in Hm. case_bool_decide as Hi.
    - destruct Hm as [->|Hm]; [by left|]. by apply IH.
    - destruct Hm as [->|Hm].
      + right. exists x. split; [left|done].
      + destruct (IH (mid x.1 x.2 :: seen) Hm) as [H1|(m' & H1 & H2)].
        * rewrite elem_of_cons in H1. destruct H1 as [H1|H1]; [|by left].
          right. exists x. split; [left|done].
        * right. exists m'. split; [by right|done].
  Qed.

  Lemma dec_some d u : dec d = Some u -> raw_decompress d = Some u.
  Proof. unfold decompress_message. destruct (raw_len d); [|done]. by case_match. Qed.
  Lemma same_id t d t' d' :
    N.of_nat (String.length t) < 2 ^ 64 -> N.of_nat (String.length t') < 2 ^ 64 ->
    mid t d = mid t' d' ->
    (t = t' /\ ((exists u, dec d = Some u /\ dec d' = Some u) \/ d = d')) \/ (pre t d <> pre t' d' /\ sha (pre t d) = sha (pre t' d')).
  Proof.
    intros Hl Hl' H. destruct (decide (pre t d = pre t' d')) as [He|Hn].
    - left. apply preimage_inj in He as (-> & [H1|(_ & _ & ->)]); auto.
    - right. eauto.
  Qed.
End MsgId.

Lemma identifies_pf raw_decompress raw_len sha t d t' d' :
  N.of_nat (String.length t) < 2 ^ 64 -> N.of_nat (String.length t') < 2 ^ 64 ->
  compute_message_id raw_decompress raw_len sha t d = compute_message_id raw_decompress raw_len sha t' d' ->
  (t = t' /\ (d = d' \/ exists u, raw_decompress d = Some u /\ raw_decompress d' = Some u)) \/
  (id_preimage raw_decompress raw_len t d <> id_preimage raw_decompress raw_len t' d' /\
   sha (id_preimage raw_decompress raw_len t d) = sha (id_preimage raw_decompress raw_len t' d')).
Proof.
  intros Hl Hl' H. apply same_id in H as [(-> & [(u & H1 & H2)| ->])|H]; [| |by right|done..]; left.
  - split; [done|]. right. exists u. split; by eapply dec_some.
  - auto.
Qed.
Lemma nothing_lost_pf B G A (b_of_ssz : bytes -> option B) (g_of_ssz : bytes -> option G) (a_of_ssz : bytes -> option A)
    raw_decompress raw_len sha arrived topic data :
  (forall t d, (t, d) ∈ arrived -> N.of_nat (String.length t) < 2 ^ 64) ->
  (forall t d t' d', (t, d) ∈ arrived -> (t', d') ∈ arrived ->
     sha (id_preimage raw_decompress raw_len t d) = sha (id_preimage raw_decompress raw_len t' d') ->
     id_preimage raw_decompress raw_len t d = id_preimage raw_decompress raw_len t' d') ->
  (topic, data) ∈ arrived ->
  exists data', (topic, data') ∈ handed_on raw_decompress raw_len sha [] arrived /\
     handle_gossipsub_message b_of_ssz g_of_ssz a_of_ssz raw_decompress raw_len topic data' =
     handle_gossipsub_message b_of_ssz g_of_ssz a_of_ssz raw_decompress raw_len topic data.
Proof.
  intros Hlen Hcol Hm. destruct (handed_first raw_decompress raw_len sha _ [] _ Hm) as [H|((t' & d') & H1 & H2)];
    [by apply elem_of_nil in H|].
  pose proof (handed_arrived _ _ _ _ _ _ H1) as H3.
  apply same_id in H2 as [(Ht & Hc)|H2]; [|cbn in H2; destruct H2 as [H2 H4]; by apply Hcol in H4|eauto..]. cbn in Ht, Hc. subst t'.
  exists d'. split; [done|]. destruct Hc as [(u & E1 & E2)| ->]; [|done].
  unfold handle_gossipsub_message. by rewrite E1, E2.
Qed.
Lemma once_pf raw_decompress raw_len sha arrived i j topic data data' u :
  handed_on raw_decompress raw_len sha [] arrived !! i = Some (topic, data) ->
  handed_on raw_decompress raw_len sha [] arrived !! j = Some (topic, data') ->
  raw_len data = Some (lenN u) -> raw_len data' = Some (lenN u) -> lenN u <= 10485760 ->
  raw_decompress data = Some u -> raw_decompress data' = Some u ->
  i = j /\ (topic, data) ∈ arrived.
Proof.
  intros Hi Hj L L' Hu E E'. split.
  - eapply (NoDup_lookup _ i j); [apply (handed_nodup raw_decompress raw_len sha [] arrived)|..].
    + rewrite list_lookup_fmap, Hi. reflexivity.
    + rewrite list_lookup_fmap, Hj. cbn. unfold compute_message_id. f_equal. f_equal. symmetry.
      apply preimage_content. exists u. unfold decompress_message.
      rewrite L, L'. change MAX_PAYLOAD_SIZE with 10485760.
      assert ((10485760 <? lenN u) = false) as -> by lia. done.
  - eapply handed_arrived, elem_of_list_lookup_2, Hi.
Qed.
