(** Proofs about the signature functions (C81). *)
From Verif Require Import Lib CryptoSpec.
Local Open Scope N_scope.

Section Proofs.
  Context (M : Multisig).
  Local Notation PK := (PK M).

  Lemma of_option_Ok {Er A} (e : Er) (o : option A) x : of_option e o = Ok x -> o = Some x.
  Proof. destruct o; cbn; [congruence|done]. Qed.
  Lemma to_byte_list_Ok b b' : to_byte_list b = Ok b' -> b' = b.
  Proof. unfold to_byte_list. destruct (_ <=? _); [congruence|done]. Qed.
  Lemma collect_Ok {Er A B} (f : A -> res Er B) l k : collect f l = Ok k <-> Forall2 (fun x y => f x = Ok y) l k.
  Proof.
    revert k. induction l as [|x l IH]; intros k; cbn.
    - split; [intros H; injection H as <-; constructor|]. intros H. by inversion H.
    - split.
      + destruct (f x) as [y| |] eqn:Hx; cbn; [|done|done].
        destruct (collect f l) as [ys| |] eqn:Hl; cbn; [|done|done]. intros H. injection H as <-.
        constructor; [done|]. by apply IH.
      + intros H. inversion H as [|? y ? ys Hy Hys]; subst. rewrite Hy. cbn. apply IH in Hys. by rewrite Hys.
  Qed.
  Lemma verify1_Ok b pks m slot :
    verify_aggregated_signature M b pks m slot = Ok tt <->
    exists t, t1_decompress M b pks = Some t /\ in_msg (t1_info M t) = m /\ in_slot (t1_info M t) = slot /\ lm_verify1 M t = true.
  Proof.
    unfold verify_aggregated_signature. destruct (t1_decompress M b pks) as [t|]; cbn.
    - split.
      + destruct (N.eqb_spec (in_msg (t1_info M t)) m) as [Hm|]; cbn; [|done].
        destruct (N.eqb_spec (in_slot (t1_info M t)) slot) as [Hs|]; cbn; [|done].
        destruct (lm_verify1 M t) eqn:Hv; [|done]. intros _. by exists t.
      + intros (t' & Ht & <- & <- & Hv). injection Ht as <-. rewrite !N.eqb_refl. cbn. by rewrite Hv.
    - split; [done|]. by intros (? & ? & _).
  Qed.
  Lemma bindings_ok (l : list (H256 * N)) (k : list (Info PK)) : lenN k = lenN l ->
    forallb (fun x => (in_msg x.2 =? x.1.1) && (in_slot x.2 =? x.1.2)) (zip l k) = true <->
    Forall2 (fun x y => in_msg y = x.1 /\ in_slot y = x.2) l k.
  Proof.
    revert k. induction l as [|x l IH]; intros [|y k]; try done.
    unfold lenN. cbn [length]. intros Hl. cbn. rewrite andb_true_iff, IH by (unfold lenN; lia). split.
    - intros [[H1 H2]%andb_true_iff ?]. constructor; [|done]. by apply N.eqb_eq in H1; apply N.eqb_eq in H2.
    - intros H. inversion H as [|? ? ? ? [Hm Hs] ?]; subst. split; [|done]. by rewrite Hm, Hs, !N.eqb_refl.
  Qed.
  Lemma verify2_Ok b pkss bindings :
    verify_type_2_signature M b pkss bindings = Ok tt <->
    length bindings = length pkss /\
    exists t, t2_decompress M b pkss = Some t /\ Forall2 (fun x y => in_msg y = x.1 /\ in_slot y = x.2) bindings (t2_infos M t) /\
      lm_verify2 M t = true.
  Proof.
    unfold verify_type_2_signature. destruct (N.eqb_spec (lenN bindings) (lenN pkss)) as [Hl|Hl]; cbn.
    2: { split; [done|]. intros [H _]. exfalso. apply Hl. unfold lenN. by rewrite H. }
    assert (length bindings = length pkss) as Hl' by (unfold lenN in Hl; lia).
    destruct (t2_decompress M b pkss) as [t|]; cbn.
    - destruct (N.eqb_spec (lenN (t2_infos M t)) (lenN bindings)) as [Hn|Hn]; cbn.
      + pose proof (bindings_ok bindings (t2_infos M t) Hn) as Hb.
        destruct (forallb _ _) eqn:Hf; cbn.
        * destruct (lm_verify2 M t) eqn:Hv.
          -- split; [|done]. intros _. split; [done|]. exists t. split_and!; [done| |done]. by apply Hb.
          -- split; [done|]. intros (_ & t' & Ht & _ & Hv'). injection Ht as <-. congruence.
        * split; [done|]. intros (_ & t' & Ht & H & _). injection Ht as <-. apply Hb in H. done.
      + split; [done|]. intros (_ & t' & Ht & H & _). injection Ht as <-. apply Forall2_length in H. exfalso. apply Hn.
        unfold lenN. by rewrite H.
    - split; [done|]. by intros (_ & ? & ? & _).
  Qed.

  (** ** Acceptance means that everybody signed *)
  Lemma verify1_sound b pks m slot : sound_multisig M ->
    verify_aggregated_signature M b pks m slot = Ok tt -> forall pk, pk ∈ pks -> signed M pk m slot.
  Proof.
    intros HM (t & Ht & <- & <- & Hv)%verify1_Ok pk Hpk.
    apply (sm_verify1 M HM t Hv). by apply (sm_keys1 M HM _ _ _ Ht).
  Qed.
  Lemma verify2_sound b pkss bindings : sound_multisig M ->
    verify_type_2_signature M b pkss bindings = Ok tt ->
    length bindings = length pkss /\
    forall i pks m slot pk, pkss !! i = Some pks -> bindings !! i = Some (m, slot) -> pk ∈ pks -> signed M pk m slot.
  Proof.
    intros HM (Hl & t & Ht & Hb & Hv)%verify2_Ok. split; [done|]. intros i pks m slot pk Hp Hi Hpk.
    destruct (Forall2_lookup_l _ _ _ _ _ Hb Hi) as (x & Hx & Hm & Hs). cbn in *. subst.
    apply (sm_verify2 M HM t Hv x); [by eapply elem_of_list_lookup_2|]. by apply (sm_keys2 M HM _ _ _ Ht _ _ _ Hx Hp).
  Qed.

  (** ** What is produced is accepted *)
  Lemma produced_ok t b pks m slot : faithful_multisig M ->
    to_byte_list (t1_compress M t) = Ok b -> lm_verify1 M t = true -> in_msg (t1_info M t) = m -> in_slot (t1_info M t) = slot ->
    same_keys (in_pks (t1_info M t)) pks -> verify_aggregated_signature M b pks m slot = Ok tt.
  Proof.
    intros HM ->%to_byte_list_Ok Hv <- <- Hk. apply verify1_Ok.
    destruct (fm_codec1 M HM t pks Hk) as (t' & ? & ? & ? & ?). exists t'. split_and!; [done..|congruence].
  Qed.
  Lemma same_keys_trans {A} (l k j : list A) : same_keys l k -> same_keys k j -> same_keys l j.
  Proof. intros H1 H2 x. by rewrite (H1 x). Qed.
  Lemma children_keys (children : list (list PK * bytes)) cs : sound_multisig M ->
    collect (decompress_type1 M) children = Ok cs ->
    same_keys (concat (map (fun c => in_pks (t1_info M c)) cs)) (concat (map fst children)).
  Proof.
    intros HM H%collect_Ok. induction H as [|[pks b] c l k Hc _ IH]; intros x; cbn; [done|].
    rewrite !elem_of_app, (IH x). apply of_option_Ok in Hc. by rewrite (sm_keys1 M HM _ _ _ Hc x).
  Qed.
  Lemma fst_zip_keys {B} (pks : list PK) (sigs : list B) : lenN pks = lenN sigs -> map fst (zip pks sigs) = pks.
  Proof. intros H. apply fst_zip. unfold lenN in H. lia. Qed.

  Lemma mixed_accepted children pks sigs m slot b all : sound_multisig M -> faithful_multisig M ->
    aggregate_mixed M children pks sigs m slot = Ok b ->
    same_keys (concat (map fst children) ++ pks) all ->
    verify_aggregated_signature M b all m slot = Ok tt.
  Proof.
    intros Hs HM H Hall. unfold aggregate_mixed in H. destruct (N.eqb_spec (lenN pks) (lenN sigs)) as [Hl|]; [|done]. cbn [negb] in H.
    destruct (_ && _); [done|]. destruct (collect _ _) as [cs| |] eqn:Hc; cbn in H; [|done|done].
    destruct (lm_aggregate M cs _ m slot) as [t|] eqn:Ha; cbn in H; [|done].
    destruct (fm_aggregate M HM _ _ _ _ _ Ha) as (Hv & Hm & Hsl & Hk). eapply produced_ok; try done.
    eapply same_keys_trans; [exact Hk|]. intros x. rewrite <- (Hall x), !elem_of_app, (children_keys _ _ Hs Hc x).
    by rewrite fst_zip_keys.
  Qed.
  Lemma signatures_accepted pks sigs m slot b all : sound_multisig M -> faithful_multisig M ->
    aggregate_signatures M pks sigs m slot = Ok b -> same_keys pks all ->
    verify_aggregated_signature M b all m slot = Ok tt.
  Proof.
    intros Hs HM H Hall. unfold aggregate_signatures in H. destruct (N.eqb_spec (lenN pks) (lenN sigs)) as [Hl|]; [|done]. cbn [negb] in H.
    destruct (_ =? 0); [done|]. destruct (lm_aggregate M [] _ m slot) as [t|] eqn:Ha; cbn in H; [|done].
    destruct (fm_aggregate M HM _ _ _ _ _ Ha) as (Hv & Hm & Hsl & Hk). eapply produced_ok; try done.
    eapply same_keys_trans; [exact Hk|]. intros x. cbn. rewrite <- (Hall x). by rewrite fst_zip_keys.
  Qed.
  Lemma proofs_accepted children m slot b all : sound_multisig M -> faithful_multisig M ->
    aggregate_proofs M children m slot = Ok b -> same_keys (concat (map fst children)) all ->
    verify_aggregated_signature M b all m slot = Ok tt.
  Proof.
    intros Hs HM H Hall. unfold aggregate_proofs in H. destruct (_ <? 2); [done|].
    destruct (collect _ _) as [cs| |] eqn:Hc; cbn in H; [|done|done].
    destruct (lm_aggregate M cs _ m slot) as [t|] eqn:Ha; cbn in H; [|done].
    destruct (fm_aggregate M HM _ _ _ _ _ Ha) as (Hv & Hm & Hsl & Hk). eapply produced_ok; try done.
    eapply same_keys_trans; [exact Hk|]. intros x. cbn. rewrite app_nil_r. by rewrite <- (Hall x), (children_keys _ _ Hs Hc x).
  Qed.

  (** ** ... and something is produced *)
  Lemma collect_children (children : list (list PK * bytes)) m slot :
    Forall (fun c => verify_aggregated_signature M c.2 c.1 m slot = Ok tt) children ->
    exists cs, collect (decompress_type1 M) children = Ok cs /\ length cs = length children /\
      Forall (fun c => lm_verify1 M c = true /\ in_msg (t1_info M c) = m /\ in_slot (t1_info M c) = slot) cs.
  Proof.
    induction 1 as [|[pks b] l (t & Ht & Hm & Hs & Hv)%verify1_Ok _ (cs & Hc & Hl & IH)]; cbn.
    - by exists [].
    - exists (t :: cs). unfold decompress_type1 at 1. cbn in *. rewrite Ht. cbn. rewrite Hc. cbn. rewrite Hl. split_and!; [done..|]. by constructor.
  Qed.
  Lemma to_byte_list_dec b : to_byte_list b = Ok b \/ to_byte_list b = Err ProofTooBig.
  Proof. unfold to_byte_list. destruct (_ <=? _); tauto. Qed.
  Lemma mixed_made children pks sigs m slot : faithful_multisig M ->
    Forall (fun c => verify_aggregated_signature M c.2 c.1 m slot = Ok tt) children ->
    Forall2 (fun pk sg => xmss_valid M pk m slot sg = true) pks sigs ->
    (pks <> [] \/ 2 <= lenN children) ->
    (exists b, aggregate_mixed M children pks sigs m slot = Ok b) \/ aggregate_mixed M children pks sigs m slot = Err ProofTooBig.
  Proof.
    intros HM Hc Hr Hne. unfold aggregate_mixed.
    assert (lenN pks = lenN sigs) as -> by (unfold lenN; by rewrite (Forall2_length _ _ _ Hr)). rewrite N.eqb_refl. cbn [negb].
    destruct ((lenN sigs =? 0) && (lenN children <? 2)) eqn:He.
    { apply andb_true_iff in He as [H1%N.eqb_eq H2%N.ltb_lt]. destruct Hne as [Hne|]; [|lia].
      apply Forall2_length in Hr. unfold lenN in H1. destruct pks; [done|]. cbn in Hr. lia. }
    destruct (collect_children _ _ _ Hc) as (cs & -> & Hl & Hcs). cbn.
    assert (Forall (fun x : PK * XSig M => xmss_valid M x.1 m slot x.2 = true) (zip pks sigs)) as Hz.
    { clear -Hr. induction Hr; cbn; constructor; done. }
    destruct (fm_can_aggregate M HM cs (zip pks sigs) m slot Hcs Hz) as [t ->].
    { destruct Hne as [Hne|Hne].
      - right. destruct pks; [done|]. inversion Hr; subst. done.
      - left. unfold lenN in Hne. intros ->. cbn in Hl. lia. }
    cbn. destruct (to_byte_list_dec (t1_compress M t)) as [->| ->]; [left; by eexists|by right].
  Qed.
  Lemma signatures_made pks sigs m slot : faithful_multisig M ->
    Forall2 (fun pk sg => xmss_valid M pk m slot sg = true) pks sigs -> pks <> [] ->
    (exists b, aggregate_signatures M pks sigs m slot = Ok b) \/ aggregate_signatures M pks sigs m slot = Err ProofTooBig.
  Proof.
    intros HM Hr Hne. destruct (mixed_made [] pks sigs m slot HM) as [H|H]; [constructor|done|by left|left|right].
    - destruct H as [b H]. exists b. revert H. unfold aggregate_mixed, aggregate_signatures. destruct (negb _); [done|].
      destruct (_ =? 0); [done|]. done.
    - revert H. unfold aggregate_mixed, aggregate_signatures. destruct (negb _); [done|].
      destruct (_ =? 0); [done|]. done.
  Qed.
  Lemma proofs_made children m slot : faithful_multisig M ->
    Forall (fun c => verify_aggregated_signature M c.2 c.1 m slot = Ok tt) children -> 2 <= lenN children ->
    (exists b, aggregate_proofs M children m slot = Ok b) \/ aggregate_proofs M children m slot = Err ProofTooBig.
  Proof.
    intros HM Hc Hn. destruct (mixed_made children [] [] m slot HM Hc) as [H|H]; [constructor|by right|left|right].
    - destruct H as [b H]. exists b. revert H. unfold aggregate_mixed, aggregate_proofs. cbn.
      destruct (_ <? _); [done|]. done.
    - revert H. unfold aggregate_mixed, aggregate_proofs. cbn. destruct (_ <? _); [done|]. done.
  Qed.

  (** ** Merging *)
  Lemma merged_accepted (l : list (list PK * bytes)) bindings b : sound_multisig M -> faithful_multisig M ->
    merge_type_1s_into_type_2 M l = Ok b ->
    Forall2 (fun c x => verify_aggregated_signature M c.2 c.1 x.1 x.2 = Ok tt) l bindings ->
    verify_type_2_signature M b (map fst l) bindings = Ok tt.
  Proof.
    intros Hs HM H Hv. unfold merge_type_1s_into_type_2 in H. destruct (_ =? 0); [done|].
    destruct (collect _ _) as [ts| |] eqn:Hc; cbn in H; [|done|done].
    destruct (lm_merge M ts) as [t|] eqn:Hm; cbn in H; [|done]. apply to_byte_list_Ok in H as ->.
    destruct (fm_merge M HM _ _ Hm) as [Hv2 Hi]. apply collect_Ok in Hc.
    destruct (fm_codec2 M HM t (map fst l)) as (t' & Ht' & Hvt & Hi').
    { apply Forall2_fmap_r. clear -Hs Hc Hi. revert Hi. generalize (t2_infos M t). induction Hc as [|[pks b] c l k Hc _ IH]; intros is Hi.
      - inversion Hi; subst. constructor.
      - inversion Hi as [|x ? is' ? (_ & _ & Hx) Hi']; subst. constructor; [|by apply IH]. cbn.
        apply of_option_Ok in Hc. eapply same_keys_trans; [exact Hx|]. by eapply sm_keys1. }
    apply verify2_Ok. split; [rewrite map_length; symmetry; by eapply Forall2_length|]. exists t'. split_and!; [done| |congruence].
    clear -Hc Hi Hi' Hv. revert Hi' Hi. generalize (t2_infos M t), (t2_infos M t'). intros is is' Hi' Hi.
    revert is is' bindings Hv Hi Hi'. induction Hc as [|[pks b] c l k Hc _ IH]; intros is is' bindings Hv Hi Hi'.
    - inversion Hi; subst. inversion Hi'; subst. inversion Hv; subst. constructor.
    - inversion Hi as [|x ? is1 ? (Hx1 & Hx2 & _) Hi1]; subst. inversion Hi' as [|y ? is2 ? [Hy1 Hy2] Hi2]; subst.
      inversion Hv as [|? z ? zs Hz Hv1]; subst. constructor; [|by eapply IH].
      cbn in Hz. apply verify1_Ok in Hz as (u & Hu & Hz1 & Hz2 & _). apply of_option_Ok in Hc. cbn in Hc. rewrite Hc in Hu. injection Hu as <-.
      split; congruence.
  Qed.
  Lemma merged_made (l : list (list PK * bytes)) bindings : faithful_multisig M -> l <> [] ->
    Forall2 (fun c x => verify_aggregated_signature M c.2 c.1 x.1 x.2 = Ok tt) l bindings ->
    (exists b, merge_type_1s_into_type_2 M l = Ok b) \/ merge_type_1s_into_type_2 M l = Err ProofTooBig.
  Proof.
    intros HM Hne Hv. unfold merge_type_1s_into_type_2.
    destruct (N.eqb_spec (lenN l) 0) as [H0|_]; [unfold lenN in H0; destruct l; [done|cbn in H0; lia]|].
    assert (exists ts, collect (decompress_type1 M) l = Ok ts /\ length ts = length l /\ Forall (fun t => lm_verify1 M t = true) ts) as (ts & -> & Hl & Hts).
    { clear Hne. induction Hv as [|[pks b] x l k (t & Ht & _ & _ & Hv1)%verify1_Ok _ (ts & Hc & Hl & IH)]; cbn; [by exists []|].
      exists (t :: ts). unfold decompress_type1 at 1. cbn in *. rewrite Ht. cbn. rewrite Hc. cbn. rewrite Hl. split_and!; [done..|]. by constructor. }
    cbn. destruct (fm_can_merge M HM ts) as [t ->]; [intros ->; destruct l; done|done|].
    cbn. destruct (to_byte_list_dec (t2_compress M t)) as [->| ->]; [left; by eexists|by right].
  Qed.

  (** ** Splitting *)
  Lemma matching_spec m (l : list (Info PK)) i : i ∈ matching M m l <-> exists x, l !! i = Some x /\ in_msg x = m.
  Proof.
    unfold matching. rewrite elem_of_list_omap. split.
    - intros (o & Ho & Hi). apply elem_of_lookup_imap in Ho as (j & x & -> & Hx).
      destruct (N.eqb_spec (in_msg x) m); [|done]. injection Hi as <-. by exists x.
    - intros (x & Hx & <-). exists (Some i). split; [|done]. apply elem_of_lookup_imap. exists i, x. by rewrite N.eqb_refl.
  Qed.
  Lemma matching_bindings t bindings m : Forall2 (fun x y => in_msg y = x.1 /\ in_slot y = x.2) bindings (t2_infos M t) ->
    forall i, i ∈ matching M m (t2_infos M t) <-> exists slot, bindings !! i = Some (m, slot).
  Proof.
    intros Hb i. rewrite matching_spec. split.
    - intros (x & Hx & <-). destruct (Forall2_lookup_r _ _ _ _ _ Hb Hx) as ([a s] & Ha & Hm & Hs). cbn in *. exists s. by rewrite Hm.
    - intros (s & Hs). destruct (Forall2_lookup_l _ _ _ _ _ Hb Hs) as (x & Hx & Hm & _). by exists x.
  Qed.
  Lemma split_accepted b pkss bindings m b' : sound_multisig M -> faithful_multisig M ->
    verify_type_2_signature M b pkss bindings = Ok tt -> split_type_2_by_message M b pkss m = Ok b' ->
    exists i pks slot, pkss !! i = Some pks /\ bindings !! i = Some (m, slot) /\
      verify_aggregated_signature M b' pks m slot = Ok tt.
  Proof.
    intros Hs HM (Hl & t & Ht & Hb & Hv)%verify2_Ok H. unfold split_type_2_by_message in H. rewrite Ht in H. cbn in H.
    pose proof (matching_bindings t bindings m Hb) as Hm.
    destruct (matching M m (t2_infos M t)) as [|i [|j k]] eqn:Hmt; [done| |done].
    destruct (lm_split M t i) as [c|] eqn:Hc; cbn in H; [|done].
    destruct (fm_split M HM _ _ _ Hc) as (Hvc & x & Hx & Hxm & Hxs & Hxk).
    destruct (proj1 (Hm i)) as [slot Hi]; [left|].
    destruct (lookup_lt_is_Some_2 pkss i) as [pks Hp]; [apply lookup_lt_Some in Hi; lia|].
    exists i, pks, slot. split_and!; [done..|].
    destruct (Forall2_lookup_l _ _ _ _ _ Hb Hi) as (x' & Hx' & Hm1 & Hs1). rewrite Hx in Hx'. injection Hx' as <-. cbn in *.
    eapply produced_ok; try done; [congruence..|]. eapply same_keys_trans; [exact Hxk|]. by eapply sm_keys2.
  Qed.
  Lemma split_made b pkss bindings m : faithful_multisig M ->
    verify_type_2_signature M b pkss bindings = Ok tt ->
    match List.filter (fun x => x.1 =? m) bindings with
    | [] => split_type_2_by_message M b pkss m = Err UnknownMessage
    | [_] => (exists b', split_type_2_by_message M b pkss m = Ok b') \/ split_type_2_by_message M b pkss m = Err ProofTooBig
    | _ => split_type_2_by_message M b pkss m = Err MultipleMessages
    end.
  Proof.
    intros HM (Hl & t & Ht & Hb & Hv)%verify2_Ok. unfold split_type_2_by_message. rewrite Ht. cbn.
    assert (length (matching M m (t2_infos M t)) = length (List.filter (fun x => x.1 =? m) bindings)) as Hlen.
    { clear -Hb. unfold matching.
      assert (forall f : nat -> nat, length (omap (fun x => x) (imap (fun i (x : Info PK) => if in_msg x =? m then Some (f i) else None) (t2_infos M t))) =
        length (List.filter (fun x => x.1 =? m) bindings)) as H; [|exact (H (fun i => i))].
      induction Hb as [|x y l k [H1 H2] _ IH]; intros f; [done|]. cbn [List.filter]. rewrite <- H1.
      destruct (N.eqb_spec (in_msg y) m) as [He|He]; cbn.
      - rewrite (proj2 (N.eqb_eq _ _) He). cbn. f_equal. exact (IH (fun i => f (S i))).
      - rewrite (proj2 (N.eqb_neq _ _) He). exact (IH (fun i => f (S i))). }
    destruct (matching M m (t2_infos M t)) as [|i [|j k]] eqn:Hmt; destruct (List.filter _ bindings) as [|x [|y l]]; try done.
    assert (i ∈ matching M m (t2_infos M t)) as Hi by (rewrite Hmt; left). apply matching_spec in Hi as (z & Hz & _).
    destruct (fm_can_split M HM t i Hv) as [c ->]; [by eapply lookup_lt_Some|]. cbn.
    destruct (to_byte_list_dec (t1_compress M c)) as [->| ->]; [left; by eexists|by right].
  Qed.
End Proofs.
