From Verif Require Import PanelSpec.
Local Open Scope N_scope.

Definition ordered (g : Group) : Prop :=
  NoDup (gr_order g) /\ lenN (gr_order g) <= 400 /\ forall i, i ∈ gr_order g <-> is_Some (gr_map g !! i).
Lemma lenN_snoc {A} (l : list A) x : lenN (l ++ [x]) = lenN l + 1.
Proof. unfold lenN. rewrite app_length. cbn. lia. Qed.
Lemma ensure_spec g i s : ordered g ->
  ordered (ensure g i s) /\
  gr_map (ensure g i s) !! i = Some (default (mkEntry s None ∅) (gr_map g !! i)) /\
  (forall j e, j <> i -> gr_map (ensure g i s) !! j = Some e -> gr_map g !! j = Some e) /\
  (lenN (gr_order g) < 400 -> forall j, j <> i -> gr_map (ensure g i s) !! j = gr_map g !! j).
Proof.
  intros (Hn & Hl & Hd). unfold ensure. destruct (gr_map g !! i) as [e|] eqn:Ei.
  { rewrite Ei. cbn. repeat split; try done; apply Hd. }
  assert (i ∉ gr_order g) as Hi. { intros H. apply Hd in H as [? H]. by rewrite Ei in H. }
  rewrite lenN_snoc. unfold MAX_IDS_PER_TOPIC. destruct (N.ltb_spec 400 (lenN (gr_order g) + 1)) as [Hc|Hc].
  - destruct (gr_order g) as [|d o] eqn:Eo; [exfalso; unfold lenN in Hc; cbn in Hc; lia|]. cbn [app].
    apply NoDup_cons in Hn as [Hdo Hn]. assert (d <> i) as Hdi. { intros ->. apply Hi. by left. }
    split; [|split; [|split]].
    + unfold ordered. cbn [gr_order gr_map]. split; [|split].
      * apply NoDup_app. split; [done|]. split; [|apply NoDup_singleton]. intros x Hx Hx'. apply elem_of_list_singleton in Hx' as ->. apply Hi. by right.
      * rewrite lenN_snoc. unfold lenN in *. cbn [length] in Hl. lia.
      * intros j. destruct (decide (j = d)) as [->|Hj].
        { rewrite lookup_delete. split; [|by intros []]. intros H. exfalso. apply elem_of_app in H as [H|H]; [done|]. by apply elem_of_list_singleton in H. }
        rewrite lookup_delete_ne by done. rewrite elem_of_app, elem_of_list_singleton. destruct (decide (j = i)) as [->|Hji].
        { rewrite lookup_insert. split; [by eexists|by right]. }
        rewrite lookup_insert_ne by done. rewrite <- Hd, elem_of_cons. naive_solver.
    + cbn [gr_map]. rewrite lookup_delete_ne by done. by rewrite lookup_insert.
    + intros j e Hj. cbn [gr_map]. destruct (decide (j = d)) as [->|Hjd]; [by rewrite lookup_delete|].
      rewrite lookup_delete_ne, lookup_insert_ne by done. done.
    + intros H. unfold lenN in *. cbn [length] in *. lia.
  - split; [|split; [|split]].
    + unfold ordered. cbn [gr_order gr_map]. split; [|split].
      * apply NoDup_app. split; [done|]. split; [|apply NoDup_singleton]. intros x Hx Hx'. apply elem_of_list_singleton in Hx' as ->. done.
      * rewrite lenN_snoc. lia.
      * intros j. rewrite elem_of_app, elem_of_list_singleton. destruct (decide (j = i)) as [->|Hji].
        { rewrite lookup_insert. split; [by eexists|by right]. }
        rewrite lookup_insert_ne by done. rewrite <- Hd. naive_solver.
    + cbn [gr_map]. by rewrite lookup_insert.
    + intros j e Hj. cbn [gr_map]. by rewrite lookup_insert_ne.
    + intros _ j Hj. cbn [gr_map]. by rewrite lookup_insert_ne.
Qed.
Lemma alter_ordered f i g : ordered g -> ordered (mkGroup (alter f i (gr_map g)) (gr_order g)).
Proof.
  intros (Hn & Hl & Hd). split; [done|]. split; [done|]. intros j. cbn [gr_map gr_order]. rewrite Hd.
  destruct (decide (j = i)) as [->|Hj]; [|by rewrite lookup_alter_ne by done]. rewrite lookup_alter.
  destruct (gr_map g !! i); cbn; [|done]. split; intros; by eexists.
Qed.

(** An entry agrees with a list of sightings. *)
Definition sound (S1 : N -> Prop) (S2 : N -> N -> Prop) (e : Entry) : Prop :=
  exists m, en_min e = Some m /\ (exists n, en_arr e !! n = Some m) /\ (forall n a, en_arr e !! n = Some a -> m <= a /\ S2 n a) /\ S1 (en_slot e).
Definition exact (S2 : N -> N -> Prop) (e : Entry) : Prop :=
  (forall m, en_min e = Some m <-> least (fun a => exists n, S2 n a) m) /\
  (en_min e = None -> forall x, ~ exists n, S2 n x) /\
  (forall n a, en_arr e !! n = Some a <-> least (S2 n) a) /\ (forall n, en_arr e !! n = None -> forall x, ~ S2 n x).

Lemma record_sound (S1 : N -> Prop) (S2 : N -> N -> Prop) n a s e : S1 s -> S2 n a ->
  (e = mkEntry s None ∅ \/ sound S1 S2 e) -> sound S1 S2 (record n a e).
Proof.
  intros Hs Hsn [-> | (m & Hm & (n0 & Hn0) & Ha & Hsl)].
  - exists a. cbn. rewrite lookup_empty. split; [done|]. split; [exists n; by rewrite lookup_insert|]. split; [|done].
    intros n' a' H. destruct (decide (n' = n)) as [->|Hn]; [|by rewrite lookup_insert_ne, lookup_empty in H].
    rewrite lookup_insert in H. injection H as <-. split; [lia|done].
  - unfold record. rewrite Hm. exists (N.min a m). cbn. split; [|split; [|split; [|done]]].
    + destruct (N.ltb_spec a m); f_equal; lia.
    + destruct (N.ltb_spec a m) as [Hlt|Hge].
      * rewrite N.min_l by lia. exists n. destruct (en_arr e !! n) as [b|] eqn:Eb; [|by rewrite lookup_insert].
        apply Ha in Eb as [Eb _]. destruct (N.ltb_spec a b); [by rewrite lookup_insert|lia].
      * rewrite N.min_r by lia. exists n0. destruct (en_arr e !! n) as [b|] eqn:Eb.
        -- destruct (N.ltb_spec a b); [|done]. rewrite lookup_insert_ne; [done|]. intros ->. rewrite Hn0 in Eb. injection Eb as <-. lia.
        -- rewrite lookup_insert_ne; [done|]. intros ->. by rewrite Hn0 in Eb.
    + intros n' a' H. assert (en_arr e !! n' = Some a' \/ n' = n /\ a' = a) as [H'|[-> ->]].
      { destruct (decide (n' = n)) as [->|Hn].
        - destruct (en_arr e !! n) as [b|] eqn:Eb; [destruct (N.ltb_spec a b)|]; rewrite ?lookup_insert in H.
          + injection H as <-. by right.
          + left. by rewrite Eb in H.
          + injection H as <-. by right.
        - left. destruct (en_arr e !! n) as [b|]; [destruct (N.ltb_spec a b)|]; rewrite ?lookup_insert_ne in H by done; done. }
      * apply Ha in H' as [H1 H2]. split; [lia|done].
      * split; [lia|done].
Qed.
Lemma least_unique P a b : least P a -> least P b -> a = b.
Proof. intros [H1 H2] [H3 H4]. specialize (H2 b H3). specialize (H4 a H1). lia. Qed.
Lemma record_exact (S2 S2' : N -> N -> Prop) n a s e :
  (forall n' a', S2' n' a' <-> S2 n' a' \/ n' = n /\ a' = a) ->
  (e = mkEntry s None ∅ /\ (forall n a, ~ S2 n a) \/ exact S2 e) -> exact S2' (record n a e).
Proof.
  intros HS H.
  assert (forall P P' : N -> Prop, (forall x, P' x <-> P x \/ x = a) -> forall o : option N,
    (forall m, o = Some m <-> least P m) -> (o = None -> forall x, ~ P x) ->
    forall m, (match o with None => Some a | Some m => if a <? m then Some a else Some m end) = Some m <-> least P' m) as HL.
  { intros P P' HP o Ho Hno m. destruct o as [b|].
    - assert (least P b) as [Hb1 Hb2] by (by apply Ho).
      assert (least P' (N.min a b)) as HM.
      { split; [apply HP; destruct (N.min_spec a b) as [[_ ->]|[_ ->]]; tauto|]. intros x Hx. apply HP in Hx as [Hx| ->]; [specialize (Hb2 x Hx)|]; lia. }
      assert ((if a <? b then Some a else Some b) = Some (N.min a b)) as -> by (destruct (N.ltb_spec a b); f_equal; lia).
      split; [by intros [= <-]|]. intros Hm. f_equal. by eapply least_unique.
    - assert (least P' a) as HM.
      { split; [apply HP; tauto|]. intros x Hx. apply HP in Hx as [Hx| ->]; [by apply Hno in Hx|lia]. }
      split; [by intros [= <-]|]. intros Hm. f_equal. by eapply least_unique. }
  assert ((forall m, en_min e = Some m <-> least (fun a => exists n, S2 n a) m) /\ (en_min e = None -> forall x, ~ exists n, S2 n x) /\
          (forall n a, en_arr e !! n = Some a <-> least (S2 n) a) /\ (forall n, en_arr e !! n = None -> forall x, ~ S2 n x)) as (H1 & H2 & H3 & H4).
  { destruct H as [[-> Hno]|He].
    - cbn. split; [|split; [|split]].
      + intros m. split; [done|]. intros [[n' Hn'] _]. by apply Hno in Hn'.
      + intros _ x [n' Hx]. by apply Hno in Hx.
      + intros n' a'. rewrite lookup_empty. split; [done|]. intros [Hn' _]. by apply Hno in Hn'.
      + intros n' _ x. apply Hno.
    - done. }
  split; [|split; [|split]].
  - intros m. unfold record. cbn [en_min]. apply (HL (fun a => exists n, S2 n a)); [|done|done].
    intros x. split.
    + intros [n' Hx]. apply HS in Hx as [Hx|[-> ->]]; [left; by exists n'|by right].
    + intros [[n' Hx]| ->]; [exists n'; apply HS; by left|exists n; apply HS; by right].
  - unfold record. cbn [en_min]. destruct (en_min e) as [b|]; [|done]. by destruct (a <? b).
  - intros n' a'. unfold record. cbn [en_arr]. destruct (decide (n' = n)) as [->|Hn].
    + rewrite <- (HL (S2 n) (S2' n) ltac:(intros x; rewrite HS; naive_solver) (en_arr e !! n) (H3 n) (H4 n) a').
      destruct (en_arr e !! n) as [b|] eqn:Eb; [destruct (N.ltb_spec a b)|]; rewrite ?lookup_insert; [done| |done]. by rewrite Eb.
    + assert (match en_arr e !! n with None => <[n:=a]> (en_arr e) | Some b => if a <? b then <[n:=a]> (en_arr e) else en_arr e end !! n' = en_arr e !! n') as ->.
      { destruct (en_arr e !! n) as [b|]; [destruct (N.ltb_spec a b)|]; rewrite ?lookup_insert_ne by done; done. }
      rewrite H3. unfold least. split; intros [Hl1 Hl2]; (split; [|intros x Hx; apply Hl2]).
      * apply HS. by left.
      * apply HS in Hx as [?|[? _]]; done.
      * apply HS in Hl1 as [?|[? _]]; done.
      * apply HS. by left.
  - intros n'. unfold record. cbn [en_arr]. destruct (decide (n' = n)) as [->|Hn].
    + destruct (en_arr e !! n) as [b|] eqn:Eb; [destruct (a <? b)|]; rewrite ?lookup_insert; try done. by rewrite Eb.
    + assert (match en_arr e !! n with None => <[n:=a]> (en_arr e) | Some b => if a <? b then <[n:=a]> (en_arr e) else en_arr e end !! n' = en_arr e !! n') as ->.
      { destruct (en_arr e !! n) as [b|]; [destruct (N.ltb_spec a b)|]; rewrite ?lookup_insert_ne by done; done. }
      intros E x Hx. apply HS in Hx as [Hx|[? _]]; [|done]. by apply (H4 n' E x).
Qed.

Definition slot_of nodes t i (l : list PEv) (s : N) : Prop := exists e, e ∈ l /\ sighting nodes t i e /\ pe_slot e = s.
Definition gsound nodes t (l : list PEv) (g : Group) : Prop :=
  ordered g /\ forall i e, gr_map g !! i = Some e -> sound (slot_of nodes t i l) (seen_by nodes t i l) e.
Definition gexact nodes t (l : list PEv) (g : Group) : Prop :=
  forall i, match gr_map g !! i with
            | None => forall n a, ~ seen_by nodes t i l n a
            | Some e => exact (seen_by nodes t i l) e /\ slot_of nodes t i l (en_slot e)
            end.
Lemma sound_mono (S1 S1' : N -> Prop) (S2 S2' : N -> N -> Prop) e : (forall s, S1 s -> S1' s) -> (forall n a, S2 n a -> S2' n a) -> sound S1 S2 e -> sound S1' S2' e.
Proof. intros H1 H2 (m & Hm & He & Ha & Hs). exists m. split; [done|]. split; [done|]. split; [|by apply H1]. intros n a Hn. apply Ha in Hn as [? ?]. split; [done|by apply H2]. Qed.
Lemma slot_of_app nodes t i l x s : slot_of nodes t i l s -> slot_of nodes t i (l ++ [x]) s.
Proof. intros (e & He & H). exists e. split; [|done]. apply elem_of_app. by left. Qed.
Lemma seen_by_app nodes t i l x n a : seen_by nodes t i (l ++ [x]) n a <-> seen_by nodes t i l n a \/ sighting nodes t i x /\ n = pe_node x /\ a = pe_arrival x.
Proof.
  unfold seen_by. split.
  - intros (e & He & H1 & H2 & H3). apply elem_of_app in He as [He|He]; [left; by exists e|]. apply elem_of_list_singleton in He as ->. by right.
  - intros [(e & He & H)|(H1 & -> & ->)]; [exists e; split; [|done]; apply elem_of_app; by left|]. exists x. split; [|done]. apply elem_of_app. right. by left.
Qed.
Lemma add_group_sound nodes t l g i x : sighting nodes t i x -> gsound nodes t l g ->
  gsound nodes t (l ++ [x]) (add_group g i (pe_slot x) (pe_node x) (pe_arrival x)).
Proof.
  intros Hx [Ho Hs]. unfold add_group. destruct (ensure_spec g i (pe_slot x) Ho) as (Ho' & Hi & Hj & _). split; [by apply alter_ordered|].
  intros j e. cbn [gr_map]. destruct (decide (j = i)) as [->|Hji].
  - rewrite lookup_alter, Hi. cbn. intros [= <-]. apply record_sound with (s := pe_slot x).
    + exists x. split; [|done]. apply elem_of_app. right. by left.
    + apply seen_by_app. by right.
    + destruct (gr_map g !! i) as [e0|] eqn:E0; [|by left]. right. cbn. eapply sound_mono; [| |by apply Hs].
      * intros s. apply slot_of_app.
      * intros n a H. apply seen_by_app. by left.
  - rewrite lookup_alter_ne by done. intros He. apply (Hj j e Hji) in He. eapply sound_mono; [| |by apply Hs].
    + intros s. apply slot_of_app.
    + intros n a H. apply seen_by_app. by left.
Qed.
Lemma exact_ext (S2 S2' : N -> N -> Prop) e : (forall n a, S2 n a <-> S2' n a) -> exact S2 e -> exact S2' e.
Proof.
  intros H. assert (forall (P Q : N -> Prop) m, (forall x, P x <-> Q x) -> least P m <-> least Q m) as HL.
  { intros P Q m HP. unfold least. rewrite HP. split; intros [? H2]; (split; [done|]); intros x Hx; by apply H2, HP. }
  intros (H1 & H2 & H3 & H4). split; [|split; [|split]].
  - intros m. rewrite H1. apply HL. intros x. split; intros [n Hn]; exists n; by apply H.
  - intros E x [n Hn]. apply (H2 E x). exists n. by apply H.
  - intros n a. rewrite H3. apply HL. intros x. apply H.
  - intros n E x Hx. apply (H4 n E x). by apply H.
Qed.
Lemma add_group_exact nodes t l g i x : ordered g -> sighting nodes t i x -> lenN (gr_order g) < 400 \/ is_Some (gr_map g !! i) -> gexact nodes t l g ->
  gexact nodes t (l ++ [x]) (add_group g i (pe_slot x) (pe_node x) (pe_arrival x)).
Proof.
  intros Ho Hx Hc He j. unfold add_group. destruct (ensure_spec g i (pe_slot x) Ho) as (Ho' & Hi & _ & Hj). cbn [gr_map].
  assert (forall j, j <> i -> gr_map (ensure g i (pe_slot x)) !! j = gr_map g !! j) as Hj'.
  { destruct Hc as [Hc|[e Hc]]; [by apply Hj|]. intros k _. unfold ensure. by rewrite Hc. }
  destruct (decide (j = i)) as [->|Hji].
  - rewrite lookup_alter, Hi. cbn. specialize (He i). split.
    + apply record_exact with (S2 := seen_by nodes t i l) (s := pe_slot x).
      * intros n a. rewrite seen_by_app. naive_solver.
      * destruct (gr_map g !! i) as [e0|]; cbn; [right; apply He|by left].
    + destruct (gr_map g !! i) as [e0|]; cbn; [apply slot_of_app, He|]. exists x. split; [|done]. apply elem_of_app. right. by left.
  - rewrite lookup_alter_ne, Hj' by done. specialize (He j).
    assert (forall n a, seen_by nodes t j l n a <-> seen_by nodes t j (l ++ [x]) n a) as Hs.
    { intros n a. rewrite seen_by_app. split; [by left|]. intros [H|[(_ & _ & H) _]]; [done|]. exfalso. apply Hji. destruct Hx as (_ & _ & Hx). congruence. }
    destruct (gr_map g !! j) as [e0|].
    + split; [eapply exact_ext; [exact Hs|apply He]|apply slot_of_app, He].
    + intros n a H. apply Hs in H. by apply (He n a).
Qed.
Lemma gexact_other nodes t l g x : (forall i, ~ sighting nodes t i x) -> gexact nodes t l g -> gexact nodes t (l ++ [x]) g.
Proof.
  intros Hx He j. specialize (He j).
  assert (forall n a, seen_by nodes t j l n a <-> seen_by nodes t j (l ++ [x]) n a) as Hs.
  { intros n a. rewrite seen_by_app. split; [by left|]. intros [H|[H _]]; [done|]. by apply Hx in H. }
  destruct (gr_map g !! j) as [e0|].
  - split; [eapply exact_ext; [exact Hs|apply He]|apply slot_of_app, He].
  - intros n a H. apply Hs in H. by apply (He n a).
Qed.
Lemma gsound_app nodes t l g x : gsound nodes t l g -> gsound nodes t (l ++ [x]) g.
Proof.
  intros [Ho Hs]. split; [done|]. intros i e He. eapply sound_mono; [| |by apply Hs].
  - intros s. apply slot_of_app.
  - intros n a H. apply seen_by_app. by left.
Qed.
Lemma prune_fold (M : gmap N Entry) (old : N -> bool) o : forall (m : gmap N Entry) j,
  foldr (fun i (m : gmap N Entry) => match M !! i with Some _ => if old i then delete i m else m | None => m end) m o !! j =
  if decide (j ∈ o /\ is_Some (M !! j) /\ old j = true) then None else m !! j.
Proof.
  induction o as [|i o IH]; intros m j.
  - cbn. rewrite decide_False; [done|]. intros [H _]. by apply elem_of_nil in H.
  - cbn [foldr]. destruct (M !! i) as [e|] eqn:Ei; [destruct (old i) eqn:Eo|].
    + destruct (decide (j = i)) as [->|Hj].
      * rewrite lookup_delete, decide_True; [done|]. split; [by left|]. split; [by eexists|done].
      * rewrite lookup_delete_ne by done. rewrite IH. apply decide_ext. rewrite elem_of_cons. naive_solver.
    + rewrite IH. apply decide_ext. rewrite elem_of_cons. split; [naive_solver|]. intros ([-> |H] & H2 & H3); [by rewrite Eo in H3|done].
    + rewrite IH. apply decide_ext. rewrite elem_of_cons. split; [naive_solver|]. intros ([-> |H] & [? H2] & H3); [by rewrite Ei in H2|by repeat split; eauto].
Qed.
Lemma prune_sound nodes t l g mx w : gsound nodes t l g -> gsound nodes t l (prune_group mx w g).
Proof.
  intros [(Hn & Hl & Hd) Hs]. split.
  - unfold ordered, prune_group. cbn [gr_order gr_map]. split; [|split].
    + apply NoDup_ListNoDup. apply List.NoDup_filter. by apply NoDup_ListNoDup.
    + etrans; [|exact Hl]. unfold lenN. enough (forall (f : N -> bool) k, (length (List.filter f k) <= length k)%nat) as HH by (specialize (HH (fun i => negb (match gr_map g !! i with Some e => w <=? mx - en_slot e | None => true end)) (gr_order g)); lia).
      intros f k. induction k as [|y k IHk]; cbn; [lia|]. destruct (f y); cbn; lia.
    + intros i. rewrite prune_fold. rewrite elem_of_list_In, List.filter_In, <- elem_of_list_In, negb_true_iff.
      destruct (decide _) as [(H1 & H2 & H3)|H].
      * split; [|by intros []]. intros [_ H4]. by rewrite H4 in H3.
      * rewrite <- Hd. split; [tauto|]. intros Hi. split; [done|]. match goal with |- ?b = false => destruct b eqn:E end; [|done].
        exfalso. apply H. split; [done|]. split; [by apply Hd|done].
  - intros i e. unfold prune_group. cbn [gr_map]. rewrite prune_fold. destruct (decide _); [done|]. apply Hs.
Qed.

Definition psound nodes (l : list PEv) (p : Panel) : Prop :=
  gsound nodes TBlock l (pa_block p) /\ gsound nodes TAggregate l (pa_agg p) /\ forall e, e ∈ l -> counted nodes e -> pe_slot e <= pa_max p.
Lemma panel_sound nodes w ops : psound nodes (events_of ops) (panel_run nodes (panel0 w) ops).
Proof.
  induction ops as [|o ops IH] using rev_ind.
  - split; [|split].
    1,2: split; [split; [constructor|]; split; [vm_compute; discriminate|]; intros i; cbn; rewrite lookup_empty; split; [intros H; by apply elem_of_nil in H|by intros []]|]; intros i e; cbn; by rewrite lookup_empty.
    intros e He. by apply elem_of_nil in He.
  - unfold panel_run, events_of in *. rewrite foldl_app, omap_app. cbn [foldl]. destruct o as [x| |n]; cbn [panel_op omap list_omap].
    + destruct IH as (Hb & Ha & Hm). unfold add_event.
      assert (forall p : Panel, gsound nodes TBlock (omap (fun o => match o with OEvent e => Some e | _ => None end) ops ++ [x]) (pa_block p) ->
        gsound nodes TAggregate (omap (fun o => match o with OEvent e => Some e | _ => None end) ops ++ [x]) (pa_agg p) ->
        pa_max (foldl (panel_op nodes) (panel0 w) ops) <= pa_max p -> (counted nodes x -> pe_slot x <= pa_max p) ->
        psound nodes (omap (fun o => match o with OEvent e => Some e | _ => None end) ops ++ [x]) p) as HP.
      { intros p H1 H2 H3 H4. split; [done|]. split; [done|]. intros e He Hc. apply elem_of_app in He as [He|He].
        - specialize (Hm e He Hc). lia.
        - apply elem_of_list_singleton in He as ->. by apply H4. }
      destruct (pe_topic x) eqn:Et; destruct (pe_id x) as [i|] eqn:Ei;
        try (apply HP; [by apply gsound_app|by apply gsound_app|lia|by intros (H1 & H2 & _)]).
      * destruct (decide (pe_node x ∈ nodes)) as [Hn|Hn]; [|apply HP; [by apply gsound_app|by apply gsound_app|lia|by intros (_ & _ & H)]].
        assert (sighting nodes TBlock i x) as Hx. { split; [|done]. unfold counted. rewrite Et, Ei. done. }
        apply HP; cbn [pa_block pa_agg pa_max]; [by apply add_group_sound|by apply gsound_app| |intros _]; destruct (N.ltb_spec (pa_max (foldl (panel_op nodes) (panel0 w) ops)) (pe_slot x)); lia.
      * destruct (decide (pe_node x ∈ nodes)) as [Hn|Hn]; [|apply HP; [by apply gsound_app|by apply gsound_app|lia|by intros (_ & _ & H)]].
        assert (sighting nodes TAggregate i x) as Hx. { split; [|done]. unfold counted. rewrite Et, Ei. done. }
        apply HP; cbn [pa_block pa_agg pa_max]; [by apply gsound_app|by apply add_group_sound| |intros _]; destruct (N.ltb_spec (pa_max (foldl (panel_op nodes) (panel0 w) ops)) (pe_slot x)); lia.
    + rewrite app_nil_r. destruct IH as (Hb & Ha & Hm). split; [by apply prune_sound|]. split; [by apply prune_sound|done].
    + rewrite app_nil_r. exact IH.
Qed.

Lemma drawn_iff ms p t i n d c : mkDot i n d c ∈ drawn ms p t <->
  exists e a, gr_map (group_of p t) !! i = Some e /\ pa_max p - en_slot e < pa_window p /\ en_arr e !! n = Some a /\
    d = a - default 0 (en_min e) /\ c = colour ms d.
Proof.
  unfold drawn. rewrite elem_of_list_In, in_concat. split.
  - intros (l & Hl & Hd). apply in_map_iff in Hl as ([j e] & <- & Hj). apply elem_of_list_In, elem_of_map_to_list in Hj.
    destruct (N.leb_spec (pa_window p) (pa_max p - en_slot e)) as [Hw|Hw]; [done|]. apply in_map_iff in Hd as ([n' a] & Hd & Hn).
    apply elem_of_list_In, elem_of_map_to_list in Hn. cbn [fst snd] in Hd. injection Hd as <- <- <- <-. by exists e, a.
  - intros (e & a & Hi & Hw & Ha & -> & ->). eexists. split.
    + apply in_map_iff. exists (i, e). split; [reflexivity|]. by apply elem_of_list_In, elem_of_map_to_list.
    + destruct (N.leb_spec (pa_window p) (pa_max p - en_slot e)) as [Hw'|Hw']; [lia|]. apply in_map_iff. exists (n, a). split; [done|]. by apply elem_of_list_In, elem_of_map_to_list.
Qed.
Lemma psound_group nodes l p t : t <> TOther -> psound nodes l p -> gsound nodes t l (group_of p t).
Proof. intros Ht (H1 & H2 & _). by destruct t. Qed.

Lemma dots_pf nodes w ops ms t i : t <> TOther -> let shown := drawn ms (panel_run nodes (panel0 w) ops) t in
  (exists n d c, mkDot i n d c ∈ shown) ->
  exists f, seen_at nodes t i (events_of ops) f /\ (exists n, mkDot i n 0 CFirst ∈ shown) /\
    forall n d c, mkDot i n d c ∈ shown -> seen_by nodes t i (events_of ops) n (f + d).
Proof.
  intros Ht shown (n & d & c & Hd). subst shown. apply drawn_iff in Hd as (e & a & He & Hw & Ha & -> & ->).
  pose proof (psound_group _ _ _ t Ht (panel_sound nodes w ops)) as [_ Hs]. destruct (Hs i e He) as (m & Hm & (n0 & Hn0) & Hall & _).
  exists m. split; [|split].
  - destruct (Hall n0 m Hn0) as [_ (x & Hx & Hsx & _ & Hax)]. by exists x.
  - exists n0. apply drawn_iff. exists e, m. rewrite Hm. cbn. rewrite N.sub_diag. done.
  - intros n1 d1 c1 H1. apply drawn_iff in H1 as (e1 & a1 & He1 & _ & Ha1 & -> & _). rewrite He in He1. injection He1 as <-.
    apply Hall in Ha1 as [Hle Ha1]. rewrite Hm. cbn. by replace (m + (a1 - m)) with a1 by lia.
Qed.
Lemma bounded_pf nodes w ops ms t K : t <> TOther -> NoDup K ->
  (forall i, i ∈ K -> exists n d c, mkDot i n d c ∈ drawn ms (panel_run nodes (panel0 w) ops) t) -> lenN K <= 400.
Proof.
  intros Ht Hn HK. pose proof (psound_group _ _ _ t Ht (panel_sound nodes w ops)) as [(Ho1 & Ho2 & Ho3) _].
  etrans; [|exact Ho2]. unfold lenN. enough (length K <= length (gr_order (group_of (panel_run nodes (panel0 w) ops) t)))%nat by lia.
  apply submseteq_length, NoDup_submseteq; [done|]. intros i Hi. destruct (HK i Hi) as (n & d & c & H).
  apply drawn_iff in H as (e & _ & He & _). apply Ho3. by exists e.
Qed.

Lemma events_of_map l : events_of (map OEvent l) = l.
Proof. unfold events_of. induction l as [|e l IH]; [done|]. cbn. f_equal. exact IH. Qed.
Lemma group_other nodes p x t : t <> TOther -> (forall i, ~ sighting nodes t i x) -> group_of (add_event nodes p x) t = group_of p t.
Proof.
  intros Ht Hx. unfold add_event. destruct (pe_topic x) eqn:Et; destruct (pe_id x) as [i|] eqn:Ei; try done;
    destruct (decide (pe_node x ∈ nodes)) as [Hn|Hn]; try done; destruct t; try done; exfalso; apply (Hx i); (split; [|done]); unfold counted; by rewrite Et, Ei.
Qed.
Lemma group_same nodes p x t i : sighting nodes t i x ->
  group_of (add_event nodes p x) t = add_group (group_of p t) i (pe_slot x) (pe_node x) (pe_arrival x).
Proof.
  intros ((H1 & H2 & H3) & H4 & H5). unfold add_event. rewrite H4, H5. destruct t; try done; by rewrite decide_True by done.
Qed.
Lemma sighting_dec nodes t x : (exists i, sighting nodes t i x) \/ forall i, ~ sighting nodes t i x.
Proof.
  destruct (decide (pe_topic x = t)) as [H1|H1]; [|right; by intros i (_ & ? & _)].
  destruct (decide (pe_topic x = TOther)) as [H2|H2]; [right; by intros i ((? & _) & _)|].
  destruct (pe_id x) as [i|] eqn:Ei; [|right; intros i (_ & _ & H); by rewrite Ei in H].
  destruct (decide (pe_node x ∈ nodes)) as [H3|H3]; [|right; by intros j ((_ & _ & ?) & _)].
  left. exists i. split; [|done]. split; [done|]. by rewrite Ei.
Qed.
Lemma panel_exact nodes w t l : t <> TOther -> fits nodes t l -> gexact nodes t l (group_of (panel_run nodes (panel0 w) (map OEvent l)) t).
Proof.
  intros Ht (K & HK & Hf). induction l as [|x l IH] using rev_ind.
  - intros i. cbn. assert (gr_map (group_of (panel0 w) t) !! i = None) as -> by (destruct t; apply lookup_empty). intros n a (e & He & _). by apply elem_of_nil in He.
  - assert (gexact nodes t l (group_of (panel_run nodes (panel0 w) (map OEvent l)) t)) as IH'.
    { apply IH. intros e i He. apply Hf, elem_of_app. by left. }
    rewrite map_app. unfold panel_run in *. rewrite foldl_app. cbn [map foldl panel_op].
    pose proof (psound_group _ _ _ t Ht (panel_sound nodes w (map OEvent l))) as [Ho Hs]. rewrite events_of_map in Hs.
    destruct (sighting_dec nodes t x) as [[i Hi]|Hno].
    + rewrite (group_same _ _ _ _ i Hi). apply add_group_exact; [done|done| |done].
      unfold panel_run in *. set (g := group_of (foldl (panel_op nodes) (panel0 w) (map OEvent l)) t) in *.
      destruct (gr_map g !! i) as [e|] eqn:Ei; [right; by eexists|left]. destruct Ho as (Hn & _ & Hd).
      assert (length (i :: gr_order g) <= length K)%nat as HL.
      { apply submseteq_length, NoDup_submseteq; [apply NoDup_cons; split; [|done]|].
        - intros H. apply Hd in H as [? H]. by rewrite Ei in H.
        - intros j Hj. apply elem_of_cons in Hj as [->|Hj]; [apply (Hf x); [apply elem_of_app; right; by left|done]|].
          apply Hd in Hj as [e He]. apply Hs in He as (_ & _ & _ & _ & (y & Hy & Hsy & _)). apply (Hf y); [apply elem_of_app; by left|done]. }
      unfold lenN in *. cbn [length] in HL. lia.
    + rewrite group_other by done. by apply gexact_other.
Qed.
Lemma window_const nodes w l : pa_window (panel_run nodes (panel0 w) (map OEvent l)) = w.
Proof.
  induction l as [|x l IH] using rev_ind; [done|]. rewrite map_app. unfold panel_run in *. rewrite foldl_app. cbn [map foldl panel_op].
  unfold add_event. destruct (pe_topic x), (pe_id x); try done; destruct (decide _); done.
Qed.
Lemma max_attained nodes w l : let m := pa_max (panel_run nodes (panel0 w) (map OEvent l)) in m = 0 \/ exists e, e ∈ l /\ counted nodes e /\ pe_slot e = m.
Proof.
  cbv zeta. induction l as [|x l IH] using rev_ind; [by left|]. rewrite map_app. unfold panel_run in *. rewrite foldl_app. cbn [map foldl panel_op].
  set (p := foldl (panel_op nodes) (panel0 w) (map OEvent l)) in *.
  assert (pa_max (add_event nodes p x) = pa_max p \/ counted nodes x /\ pa_max (add_event nodes p x) = pe_slot x) as [->|[Hc ->]].
  { unfold add_event, counted. destruct (pe_topic x), (pe_id x); try (by left); destruct (decide _); try (by left); cbn [pa_max];
      destruct (N.ltb_spec (pa_max p) (pe_slot x)); try (by left); by right. }
  - destruct IH as [->|(e & He & H)]; [by left|]. right. exists e. split; [|done]. apply elem_of_app. by left.
  - right. exists x. split; [|done]. apply elem_of_app. right. by left.
Qed.
Lemma colour_iff ms d c : c = colour ms d <-> c = CFirst /\ d = 0 \/ c = CNormal /\ 0 < d <= ms \/ c = COver /\ 0 < d /\ ms < d.
Proof. unfold colour. destruct (N.eqb_spec d 0), (N.ltb_spec ms d); (split; intros G; [subst c|destruct G as [[-> ?]|[[-> ?]|[-> ?]]]; try reflexivity; exfalso; lia]).
  - by left.
  - by left.
  - right. right. split; [done|lia].
  - right. left. split; [done|lia]. Qed.
Lemma delay_pf nodes w l ms t i n d c : t <> TOther -> fits nodes t l ->
  (forall e e', e ∈ l -> e' ∈ l -> sighting nodes t i e -> sighting nodes t i e' -> pe_slot e = pe_slot e') ->
  mkDot i n d c ∈ drawn ms (panel_run nodes (panel0 w) (map OEvent l)) t <->
  exists f a e, least (seen_at nodes t i l) f /\ least (seen_by nodes t i l n) a /\ a = f + d /\
    (c = CFirst /\ d = 0 \/ c = CNormal /\ 0 < d <= ms \/ c = COver /\ 0 < d /\ ms < d) /\
    e ∈ l /\ sighting nodes t i e /\ forall x, x ∈ l -> counted nodes x -> pe_slot x < pe_slot e + w.
Proof.
  intros Ht Hf Hslot. rewrite drawn_iff, window_const. pose proof (panel_exact nodes w t l Ht Hf i) as Hex.
  pose proof (max_attained nodes w l) as Hat. cbv zeta in Hat. destruct (panel_sound nodes w (map OEvent l)) as (_ & _ & Hmax). rewrite events_of_map in Hmax.
  assert (forall m, least (fun a => exists n, seen_by nodes t i l n a) m <-> least (seen_at nodes t i l) m) as Hsa.
  { assert (forall x, (exists n, seen_by nodes t i l n x) <-> seen_at nodes t i l x) as Hq.
    { intros x. split; [intros (n' & e & He & Hs & _ & Ha); by exists e|]. intros (e & He & Hs & Ha). by exists (pe_node e), e. }
    intros m. unfold least. rewrite Hq. split; intros [? H2]; (split; [done|]); intros x Hx; by apply H2, Hq. }
  set (M := pa_max (panel_run nodes (panel0 w) (map OEvent l))) in *. split.
  - intros (e & a & He & Hw & Ha & -> & Hc). rewrite He in Hex. destruct Hex as ((H1 & H2 & H3 & H4) & (x & Hx & Hsx & Hxs)).
    apply H3 in Ha. destruct (en_min e) as [f|] eqn:Em; [|exfalso; apply (H2 eq_refl a); exists n; apply Ha]. cbn [default] in *.
    assert (least (seen_at nodes t i l) f) as Hlf by (by apply Hsa, H1).
    assert (f <= a) as Hfa. { apply Hlf. destruct Ha as [(y & Hy & Hsy & _ & Hya) _]. by exists y. }
    exists f, a, x. split; [done|]. split; [done|]. split; [cbn; lia|]. split; [by apply colour_iff|]. split; [done|]. split; [done|].
    intros y Hy Hcy. specialize (Hmax y Hy Hcy) as H5. specialize (Hmax x Hx (proj1 Hsx)) as H6. lia.
  - intros (f & a & e & Hlf & Hla & -> & Hc & Hel & Hse & Hrec).
    destruct (gr_map (group_of (panel_run nodes (panel0 w) (map OEvent l)) t) !! i) as [en|] eqn:He.
    + destruct Hex as ((H1 & H2 & H3 & H4) & (x & Hx & Hsx & Hxs)). exists en, (f + d). split; [done|]. split.
      * rewrite <- Hxs, (Hslot x e Hx Hel Hsx Hse). specialize (Hrec e Hel (proj1 Hse)) as Hw. destruct Hat as [->|(y & Hy & Hcy & <-)]; [lia|].
        specialize (Hrec y Hy Hcy). lia.
      * split; [by apply H3|]. assert (en_min en = Some f) as -> by (by apply H1, Hsa). cbn. split; [lia|by apply colour_iff].
    + exfalso. destruct Hla as [Hla _]. by apply (Hex n (f + d)).
Qed.

(** *** The page *)
Lemma dedup_elem l : forall seen k, k ∈ map pe_key (ingest_deduped seen l) <-> k ∈ map pe_key l /\ k ∉ seen.
Proof.
  induction l as [|e l IH]; intros seen k; cbn [ingest_deduped map].
  - split; [intros H; by apply elem_of_nil in H|intros [H _]; by apply elem_of_nil in H].
  - destruct (decide (pe_key e ∈ seen)) as [Hs|Hs].
    + rewrite IH, elem_of_cons. split; [tauto|]. intros [[->|H] H2]; done.
    + cbn [map]. rewrite !elem_of_cons, IH, elem_of_cons. destruct (decide (k = pe_key e)) as [->|Hk]; tauto.
Qed.
Lemma dedup_NoDup l : forall seen, NoDup (map pe_key (ingest_deduped seen l)).
Proof.
  induction l as [|e l IH]; intros seen; cbn [ingest_deduped map]; [constructor|]. destruct (decide (pe_key e ∈ seen)); [done|].
  cbn [map]. apply NoDup_cons. split; [|done]. rewrite dedup_elem. intros [_ H]. apply H. by left.
Qed.
Lemma dedup_sub l : forall seen, ingest_deduped seen l `sublist_of` l.
Proof. induction l as [|e l IH]; intros seen; cbn; [done|]. destruct (decide _); [by apply sublist_cons|by apply sublist_skip]. Qed.
Lemma page_loading l : forall b tk, page_run (mkPage true b tk) (map PLive l) = mkPage true (b ++ l) tk.
Proof. induction l as [|e l IH]; intros b tk; cbn; [by rewrite app_nil_r|]. rewrite IH. by rewrite <- app_assoc. Qed.
Lemma page_live l : forall b tk, page_run (mkPage false b tk) (map PLive l) = mkPage false b (tk ++ l).
Proof. induction l as [|e l IH]; intros b tk; cbn; [by rewrite app_nil_r|]. rewrite IH. by rewrite <- app_assoc. Qed.
Lemma page_taken l1 h l2 : pg_taken (page_run page0 (map PLive l1 ++ [PHistory h] ++ map PLive l2)) = (ingest_deduped [] (default [] h ++ l1) ++ l2)%list.
Proof. unfold page_run. rewrite foldl_app. fold (page_run page0 (map PLive l1)). unfold page0. rewrite page_loading. cbn [app foldl page_step pg_loading pg_taken pg_buffer]. fold (page_run (mkPage false [] (ingest_deduped [] (default [] h ++ l1))) (map PLive l2)). by rewrite page_live. Qed.

Lemma key_inj e e' : pe_key e = pe_key e' -> e = e'.
Proof. destruct e, e'. unfold pe_key. cbn. by intros [= -> -> -> -> -> ->]. Qed.
Lemma key_elem e l : pe_key e ∈ map pe_key l <-> e ∈ l.
Proof.
  rewrite elem_of_list_In, in_map_iff. split.
  - intros (x & Hx & Hin). apply key_inj in Hx as ->. by apply elem_of_list_In.
  - intros H. exists e. split; [done|by apply elem_of_list_In].
Qed.
Lemma page_pf l1 h l2 :
  let taken := pg_taken (page_run page0 (map PLive l1 ++ [PHistory h] ++ map PLive l2)) in
  (forall e, e ∈ taken <-> e ∈ default [] h ++ l1 ++ l2) /\
  taken `sublist_of` (default [] h ++ l1 ++ l2) /\
  (NoDup l2 -> (forall e, e ∈ l2 -> e ∉ default [] h ++ l1) -> NoDup taken).
Proof.
  cbv zeta. rewrite page_taken. split; [|split].
  - intros e. rewrite (app_assoc (default [] h)), (elem_of_app _ l2), (elem_of_app _ l2), <- (key_elem e (ingest_deduped _ _)), dedup_elem, key_elem.
    split; [tauto|]. intros [H|H]; [left|by right]. split; [exact H|]. intros Hn. by apply elem_of_nil in Hn.
  - rewrite app_assoc. apply sublist_app; [apply dedup_sub|reflexivity].
  - intros Hn Hd. apply NoDup_app. split; [|split; [|exact Hn]].
    + pose proof (dedup_NoDup (default [] h ++ l1) []) as H. apply NoDup_ListNoDup in H. apply NoDup_ListNoDup. by eapply NoDup_map_inv.
    + intros e He He2. rewrite <- key_elem in He. apply dedup_elem in He as [He _]. apply key_elem in He. exact (Hd e He2 He).
Qed.
