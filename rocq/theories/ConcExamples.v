(** Requests spread over the example run: start, B3 as head, then Y as head. *)
From Verif Require Export ConcProofs StartupExamples.
Local Open Scope N_scope.

(** *** Reading everything at one moment is the request as modelled in Serve.v *)
Section Same.
  Context (E : Env) (n : Node).
  Notation d := (nd_db n).
  Lemma head_state_same : head_state_reads d d = head_state n.
  Proof. reflexivity. Qed.
  Lemma status_same : status_reads d d d = build_status n.
  Proof. unfold status_reads, build_status, slot_of_root. by destruct (get_header _ _). Qed.
  Lemma header_same slot : header_reads slot d d d =
    (let! id := resolve_slot n slot in
     match id with
     | HOk root => Ok (match get_header (tab n) root with Some h => HOk h | None => HNotFound end)
     | HInvalid => Ok HInvalid
     | HNotFound => Ok HNotFound
     end).
  Proof.
    unfold header_reads, resolve_slot. rewrite head_state_same. destruct (head_state n) as [s| |]; cbn [rbind]; [|done..].
    destruct (getN (s_hist s) slot) as [r|]; [|done]. by destruct (r =? ZERO).
  Qed.
  Lemma fork_choice_same : fork_choice_reads (known_votes n) d d d d d d d (fun _ => d) = http_get_fork_choice n.
  Proof. reflexivity. Qed.
  Lemma signed_same r : signed_block_reads E d d d r = get_signed_block (e_body E) (tab n) r.
  Proof. reflexivity. Qed.
  Lemma range_same k : forall start, range_reads E start (repeat (d, d, d, d) k) = blocks_from (e_body E) k start (tab n).
  Proof.
    induction k as [|k IH]; intros start; [done|]. cbn [repeat range_reads blocks_from]. rewrite IH. change (db_tab d) with (tab n). destruct (t_roots _ !! _) as [r|]; [|done]. rewrite (signed_same r). by destruct (get_signed_block _ _ _).
  Qed.
End Same.

(** *** Positions in a history *)
Lemma watched_run E n0 l n es n' : watched E n0 l n -> node_run E n es n' -> exists l', watched E n0 (l ++ l') n'.
Proof.
  intros Hw. induction 1 as [|es n1 e n2 Hr IH Hs]; [exists []; by rewrite app_nil_r|].
  destruct IH as (l' & IH). eexists. rewrite app_assoc. by eapply wt_event.
Qed.
Lemma last_at {A} (l : list A) x : last l = Some x -> exists i, l !! i = Some x /\ (i < length l)%nat.
Proof. intros H. rewrite last_lookup in H. eexists. split; [exact H|]. by apply lookup_lt_Some in H. Qed.
Lemma reads_repeat l d k : forall i j ds, (i <= j)%nat -> l !! j = Some d -> reads_from l j ds -> reads_from l i (repeat d k ++ ds).
Proof.
  induction k as [|k IH]; intros i j ds Hij Hj Hr; cbn [repeat app].
  - inversion Hr; subst; [constructor|]. econstructor; [|done|done]. lia.
  - econstructor; [exact Hij|done|]. by eapply IH.
Qed.

Lemma x_history : exists l i j, history xe 1000 x_vals l x_n2 /\ (i <= j)%nat /\
  l !! 0%nat = Some (nd_db x_n0) /\ l !! i = Some (nd_db x_n1) /\ l !! j = Some (nd_db x_n2).
Proof.
  destruct (watched_run xe x_n0 _ _ _ _ (wt_start xe x_n0) x_run1) as (l1 & W1).
  destruct (watched_run xe x_n0 _ _ _ _ W1 x_run2) as (l2 & W2).
  assert (history xe 1000 x_vals ([nd_db x_n0] ++ l1) x_n1) as H1.
  { exists x_gen, x_n0. split; [exact x_anchor|]. split; [exact x_started|exact W1]. }
  assert (history xe 1000 x_vals (([nd_db x_n0] ++ l1) ++ l2) x_n2) as H2.
  { exists x_gen, x_n0. split; [exact x_anchor|]. split; [exact x_started|exact W2]. }
  pose proof (history_last _ _ _ xe_good x_vals_few _ _ H1) as L1. apply last_at in L1 as (i & Li & Hi).
  pose proof (history_last _ _ _ xe_good x_vals_few _ _ H2) as L2.
  exists (([nd_db x_n0] ++ l1) ++ l2), i, (Nat.pred (length (([nd_db x_n0] ++ l1) ++ l2))).
  split; [exact H2|]. split; [rewrite app_length; lia|]. split; [reflexivity|].
  split; [by apply lookup_app_l_Some|]. rewrite <- last_lookup. exact L2.
Qed.

(** *** Slot 3 is read while B3 is the head, slots 4 to 40 while Y is *)
Definition x_ds : list (Db * Db * Db * Db) :=
  let a := nd_db x_n1 in let b := nd_db x_n2 in (a, a, a, a) :: repeat (b, b, b, b) 37.
Lemma range_dbs_repeat d k : range_dbs (repeat (d, d, d, d) k) = repeat d (4 * k).
Proof.
  induction k as [|k IH]; [done|]. cbn [repeat]. change (range_dbs ((d, d, d, d) :: repeat (d, d, d, d) k)) with (d :: d :: d :: d :: range_dbs (repeat (d, d, d, d) k)).
  rewrite IH. replace (4 * S k)%nat with (S (S (S (S (4 * k))))) by lia. reflexivity.
Qed.
Lemma x_ds_reads l i j : (i <= j)%nat -> l !! i = Some (nd_db x_n1) -> l !! j = Some (nd_db x_n2) -> reads l (range_dbs x_ds).
Proof.
  intros Hij Hi Hj. unfold x_ds. generalize dependent (nd_db x_n1). generalize dependent (nd_db x_n2). intros b Hb a Ha.
  change (range_dbs ((a, a, a, a) :: repeat (b, b, b, b) 37)) with (repeat a 4 ++ range_dbs (repeat (b, b, b, b) 37)).
  rewrite range_dbs_repeat, <- (app_nil_r (repeat b _)).
  eapply (reads_repeat l a 4 0 i); [lia|done|]. eapply (reads_repeat l b _ i j); [done|done|constructor].
Qed.
Lemma x_range_roots : map (sb_root xe) (range_reads xe 3 x_ds) = [x_root xe xb3; x_root xe xy].
Proof.
  assert (match map (sb_root xe) (range_reads xe 3 x_ds) with [a; b] => (a =? x_root xe xb3) && (b =? x_root xe xy) | _ => false end = true) as H
    by (vm_compute; reflexivity).
  destruct (map _ _) as [|a [|b [|]]]; try done. apply andb_true_iff in H as [->%N.eqb_eq ->%N.eqb_eq]. done.
Qed.
Lemma x_not_anc k t a r : (length (x_ancs k t r) < k)%nat -> existsb (N.eqb a) (x_ancs k t r) = false -> ~ ancestor t a r.
Proof.
  intros Hk Hf H. apply x_ancs_sound with (k := k) in H; [|done]. apply elem_of_list_In in H.
  rewrite <- not_true_iff_false in Hf. apply Hf. apply existsb_exists. eexists. split; [exact H|apply N.eqb_refl].
Qed.
Lemma x_forked : ~ ancestor (tab x_n2) (x_root xe xb3) (x_root xe xy) /\ ~ ancestor (tab x_n2) (x_root xe xy) (x_root xe xb3).
Proof. split; apply (x_not_anc 6); [vm_compute; lia|vm_compute; reflexivity|vm_compute; lia|vm_compute; reflexivity]. Qed.
Lemma map_two {A B} (f : A -> B) l r1 r2 : map f l = [r1; r2] -> exists x y, x ∈ l /\ y ∈ l /\ f x = r1 /\ f y = r2.
Proof. destruct l as [|x1 [|x2 [|]]]; try done. intros [= H1 H2]. exists x1, x2. split_and!; [left|right; left|done|done]. Qed.

Lemma C82_range_refuted_pf : exists E gt vals l n start ds sb1 sb2,
  good_hash (e_header E) /\ lenN vals <= VALIDATOR_REGISTRY_LIMIT /\
  history E gt vals l n /\ reads l (range_dbs ds) /\
  sb1 ∈ range_reads E start ds /\ sb2 ∈ range_reads E start ds /\
  ~ ancestor (tab n) (sb_root E sb1) (sb_root E sb2) /\ ~ ancestor (tab n) (sb_root E sb2) (sb_root E sb1).
Proof.
  destruct x_history as (l & i & j & H & Hij & _ & Hi & Hj).
  destruct (map_two _ _ _ _ x_range_roots) as (sb1 & sb2 & H1 & H2 & R1 & R2).
  exists xe, 1000, x_vals, l, x_n2, 3, x_ds, sb1, sb2.
  split; [exact xe_good|]. split; [exact x_vals_few|]. split; [exact H|]. split; [by eapply x_ds_reads|].
  split; [exact H1|]. split; [exact H2|]. rewrite R1, R2. exact x_forked.
Qed.

(** *** The head is read at the start, the finalized checkpoint after B3 *)
Lemma C82_syncing_refuted_pf : exists E gt vals l n wall d1 d2 d3 s,
  good_hash (e_header E) /\ lenN vals <= VALIDATOR_REGISTRY_LIMIT /\
  history E gt vals l n /\ reads l [d1; d2; d3] /\
  syncing_reads wall d1 d2 d3 = Ok s /\ sy_head_slot s < sy_finalized_slot s.
Proof.
  destruct x_history as (l & i & j & H & Hij & H0 & Hi & Hj).
  exists xe, 1000, x_vals, l, x_n2, 3, (nd_db x_n0), (nd_db x_n0), (nd_db x_n1), (mkSyncing 0 3 1).
  split; [exact xe_good|]. split; [exact x_vals_few|]. split; [exact H|].
  split; [|split; [vm_compute; reflexivity|done]].
  apply (rf_cons l 0 0); [done|exact H0|]. apply (rf_cons l 0 0); [done|exact H0|]. apply (rf_cons l 0 i); [lia|exact Hi|]. constructor.
Qed.

(** *** The live chain is read at the start, the head after B3 *)
Definition x_fc : res unit ForkChoiceResponse :=
  fork_choice_reads (map_to_list (∅ : gmap N AttestationData)) (nd_db x_n0) (nd_db x_n0) (nd_db x_n0) (nd_db x_n1) (nd_db x_n1) (nd_db x_n1) (nd_db x_n1) (fun _ => nd_db x_n1).
Lemma x_fc_head : match x_fc with Ok R => existsb (N.eqb (fcr_head R)) (map fcn_root (fcr_nodes R)) = false | _ => False end.
Proof. vm_compute. reflexivity. Qed.
Lemma fc_ok (r : res unit ForkChoiceResponse) :
  match r with Ok R => existsb (N.eqb (fcr_head R)) (map fcn_root (fcr_nodes R)) = false | _ => False end ->
  exists R, r = Ok R /\ fcr_head R ∉ map fcn_root (fcr_nodes R).
Proof.
  destruct r as [R| |]; [|done..]. intros Hf. exists R. split; [done|]. intros Hin. apply elem_of_list_In in Hin.
  rewrite <- not_true_iff_false in Hf. apply Hf. apply existsb_exists. eexists. split; [exact Hin|apply N.eqb_refl].
Qed.
Lemma x_fc_reads l a b i : l !! 0%nat = Some a -> l !! i = Some b -> reads l [a; a; a; b; b; b; b; b].
Proof.
  intros Ha Hb. do 3 (apply (rf_cons l 0 0); [done|exact Ha|]). apply (rf_cons l 0 i); [lia|exact Hb|].
  do 4 (apply (rf_cons l i i); [done|exact Hb|]). constructor.
Qed.
Lemma C82_fork_choice_refuted_pf : exists E gt vals l n V d1 d2 d3 d4 d5 d6 d7 dh R,
  good_hash (e_header E) /\ lenN vals <= VALIDATOR_REGISTRY_LIMIT /\
  history E gt vals l n /\ (forall r, reads l [d1; d2; d3; d4; d5; d6; d7; dh r]) /\
  fork_choice_reads (map_to_list V) d1 d2 d3 d4 d5 d6 d7 dh = Ok R /\ fcr_head R ∉ map fcn_root (fcr_nodes R).
Proof.
  destruct x_history as (l & i & j & H & Hij & H0 & Hi & Hj).
  destruct (fc_ok x_fc x_fc_head) as (R & HR & Hf).
  exists xe, 1000, x_vals, l, x_n2, (∅ : gmap N AttestationData), (nd_db x_n0), (nd_db x_n0), (nd_db x_n0), (nd_db x_n1), (nd_db x_n1), (nd_db x_n1), (nd_db x_n1), (fun _ => nd_db x_n1), R.
  split; [exact xe_good|]. split; [exact x_vals_few|]. split; [exact H|]. split.
  { intros _. exact (x_fc_reads _ _ _ _ H0 Hi). }
  split; [exact HR|exact Hf].
Qed.
