(** A small library that meets the assumptions: keys below 100 sign anything, a signature is
    a number computed from key, message and slot, a proof lists what it binds. *)
From Verif Require Import Lib CryptoSpec.
Local Open Scope N_scope.

Definition tm_sig (pk m slot : N) : N := pk + 100 * m + 1000 * slot.
Definition tm_valid (pk m slot sg : N) : bool := (pk <? 100) && (sg =? tm_sig pk m slot).
Definition tm_ok (x : Info N) : bool := forallb (fun pk => pk <? 100) (in_pks x).
Fixpoint tm_read (b : bytes) (pkss : list (list N)) : option (list (Info N)) :=
  match b, pkss with
  | [], [] => Some []
  | m :: slot :: b', pks :: pkss' => cons (mkInfo m slot pks) <$> tm_read b' pkss'
  | _, _ => None
  end.
Definition tm : Multisig := {|
  PK := N; XSig := N; T1 := Info N; T2 := list (Info N);
  xmss_valid := tm_valid;
  t1_info := fun t => t;
  t2_infos := fun t => t;
  t1_compress := fun t => [in_msg t; in_slot t];
  t1_decompress := fun b pks => match b with [m; slot] => Some (mkInfo m slot pks) | _ => None end;
  t2_compress := fun t => concat (map (fun x => [in_msg x; in_slot x]) t);
  t2_decompress := tm_read;
  lm_aggregate := fun cs raw m slot =>
    if forallb (fun c => tm_ok c && (in_msg c =? m) && (in_slot c =? slot)) cs && forallb (fun x => tm_valid x.1 m slot x.2) raw
    then Some (mkInfo m slot (concat (map in_pks cs) ++ map fst raw)) else None;
  lm_verify1 := tm_ok;
  lm_merge := fun ts => if forallb tm_ok ts then Some ts else None;
  lm_verify2 := forallb tm_ok;
  lm_split := fun t i => match t !! i with Some x => if tm_ok x then Some x else None | None => None end |}.

Lemma tm_ok_signed x pk : tm_ok x = true -> pk ∈ in_pks x -> signed tm pk (in_msg x) (in_slot x).
Proof.
  unfold tm_ok. rewrite forallb_forall. intros H Hin. exists (tm_sig pk (in_msg x) (in_slot x)). cbn. unfold tm_valid.
  rewrite N.eqb_refl, andb_true_r. apply H. by apply elem_of_list_In.
Qed.
Lemma tm_read_keys b pkss t : tm_read b pkss = Some t -> map in_pks t = pkss.
Proof.
  revert b t. induction pkss as [|pks pkss IH]; intros b t.
  - destruct b as [|m [|s b]]; cbn; [|done|done]. intros H. by injection H as <-.
  - destruct b as [|m [|s b]]; cbn; [done|done|]. destruct (tm_read b pkss) as [l|] eqn:Hl; cbn; [|done].
    intros H. injection H as <-. cbn. f_equal. by eapply IH.
Qed.
Lemma tm_sound : sound_multisig tm.
Proof.
  split; cbn.
  - intros t H pk Hpk. by apply tm_ok_signed.
  - intros t H x pk Hx Hpk. apply tm_ok_signed; [|done]. rewrite forallb_forall in H. apply H. by apply elem_of_list_In.
  - intros b pks t. destruct b as [|m [|s [|]]]; try done. intros H. by injection H as <-.
  - intros b pkss t H i x pks Hx Hp. apply tm_read_keys in H as <-. change (map in_pks t) with (in_pks <$> t) in Hp.
    rewrite list_lookup_fmap, Hx in Hp. by injection Hp as <-.
Qed.
Lemma tm_ok_keys l k : same_keys l k -> forallb (fun pk => pk <? 100) l = forallb (fun pk => pk <? 100) k.
Proof.
  intros H. apply eq_true_iff_eq. rewrite !forallb_forall. split; intros H' x Hx; apply H', elem_of_list_In, H, elem_of_list_In, Hx.
Qed.
Lemma tm_ok_parts cs raw m slot :
  forallb (fun c => tm_ok c && (in_msg c =? m) && (in_slot c =? slot)) cs = true ->
  forallb (fun x => tm_valid x.1 m slot x.2) raw = true ->
  tm_ok (mkInfo m slot (concat (map in_pks cs) ++ map fst raw)) = true.
Proof.
  intros H1 H2. unfold tm_ok. cbn. rewrite forallb_app. apply andb_true_iff. split; apply forallb_forall; intros pk Hpk.
  - apply in_concat in Hpk as (l & Hl & Hpk). apply in_map_iff in Hl as (c & <- & Hc). rewrite forallb_forall in H1.
    apply H1 in Hc. apply andb_true_iff in Hc as [[Hc _]%andb_true_iff _]. unfold tm_ok in Hc. rewrite forallb_forall in Hc. by apply Hc.
  - apply in_map_iff in Hpk as (x & <- & Hx). rewrite forallb_forall in H2. apply H2 in Hx. by apply andb_true_iff in Hx as [? _].
Qed.
Lemma tm_faithful : faithful_multisig tm.
Proof.
  split; cbn.
  - intros [m s l] pks H. exists (mkInfo m s pks). cbn in *. split_and!; [done| |done..]. symmetry. by apply tm_ok_keys.
  - intros t pkss H. induction H as [|[m s l] pks t pkss Hx _ (t' & H1 & H2 & H3)]; cbn; [by exists []|].
    cbn in *. rewrite H1. cbn. eexists. split; [done|]. cbn. rewrite H2. split; [|by constructor].
    f_equal. symmetry. by apply tm_ok_keys.
  - intros cs raw m slot t. destruct (forallb _ cs) eqn:H1; [|done]. destruct (forallb _ raw) eqn:H2; [|done]. cbn.
    intros H. injection H as <-. cbn. split_and!; [by apply (tm_ok_parts cs raw m slot)|done..].
  - intros ts t. destruct (forallb tm_ok ts) eqn:H; [|done]. intros Hi. injection Hi as <-. split; [done|].
    clear H. induction ts; constructor; done.
  - intros t i c. destruct (t !! i) as [x|] eqn:Hx; [|done]. destruct (tm_ok x) eqn:Ho; [|done]. intros H. injection H as <-.
    split; [done|]. by exists x.
  - intros cs raw m slot H1 H2 _.
    assert (forallb (fun c => tm_ok c && (in_msg c =? m) && (in_slot c =? slot)) cs = true) as ->.
    { apply forallb_forall. intros c Hc. rewrite Forall_forall in H1. apply elem_of_list_In, H1 in Hc as (-> & -> & ->). by rewrite !N.eqb_refl. }
    assert (forallb (fun x => tm_valid x.1 m slot x.2) raw = true) as ->; [|by eexists].
    apply forallb_forall. intros c Hc. rewrite Forall_forall in H2. by apply elem_of_list_In, H2 in Hc.
  - intros ts _ H. assert (forallb tm_ok ts = true) as ->; [|by eexists]. apply forallb_forall. intros c Hc.
    rewrite Forall_forall in H. by apply elem_of_list_In, H in Hc.
  - intros t i H Hi. destruct (lookup_lt_is_Some_2 t i Hi) as [x Hx]. rewrite Hx. rewrite forallb_forall in H.
    rewrite H by (by eapply elem_of_list_In, elem_of_list_lookup_2). by eexists.
Qed.
