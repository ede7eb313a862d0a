(** Proofs about the key files (KeyFiles.v). *)
From Coq Require Import Ascii String.
From Verif Require Import Lib KeyFilesSpec.
Local Open Scope N_scope.

Lemma prefix_spec p s : String.prefix p s = true <-> exists b, s = (p +:+ b)%string.
Proof.
  revert p; induction s as [|d s IH]; intros [|c p]; cbn.
  - split; [intros _; by exists ""%string|done].
  - split; [done|]. by intros (b & H).
  - split; [intros _; by exists (String d s)|done].
  - destruct (ascii_dec c d) as [->|Hn].
    + rewrite IH. split; intros (b & H); exists b; [by rewrite H|by injection H].
    + split; [done|]. intros (b & H). cbn in H. injection H as H _. congruence.
Qed.
Lemma contains_spec sub s : contains sub s = true <-> occurs sub s.
Proof.
  induction s as [|c s IH]; cbn [contains]; rewrite orb_true_iff, prefix_spec.
  - split; [intros [(b & H)|]; [by exists ""%string, b|done]|].
    intros (a & b & H). left. destruct a as [|x a]; cbn in H; [by exists b|discriminate].
  - rewrite IH. split.
    + intros [(b & H)|(a & b & H)]; [by exists ""%string, b|]. exists (String c a), b. cbn. by rewrite H.
    + intros (a & b & H). destruct a as [|x a]; cbn in H; [left; by exists b|].
      right. injection H as _ H. by exists a, b.
Qed.
Lemma contains_false sub s : contains sub s = false <-> ~ occurs sub s.
Proof. rewrite <- contains_spec. by destruct (contains sub s). Qed.
Lemma str_assoc (a b c : string) : (a +:+ (b +:+ c) = (a +:+ b) +:+ c)%string.
Proof.
  induction a as [|x a IH]; [done|]. change (String x (a +:+ (b +:+ c)) = String x ((a +:+ b) +:+ c))%string. by rewrite IH.
Qed.
Lemma str_nil_r (a : string) : (a +:+ "" = a)%string.
Proof. induction a as [|x a IH]; [done|]. change (String x (a +:+ "") = String x a)%string. by rewrite IH. Qed.
Lemma split_cons c s : exists x xs, split_on c s = x :: xs.
Proof. destruct s as [|a s]; cbn; [by eexists _, _|]. destruct (Ascii.eqb a c); [by eexists _, _|]. destruct (split_on c s); by eexists _, _. Qed.
Lemma split_slash c a b : split_on c (a +:+ String c b) = split_on c a ++ split_on c b.
Proof.
  induction a as [|x a IH]; [change ("" +:+ String c b)%string with (String c b); cbn [split_on app]; by rewrite Ascii.eqb_refl|].
  change (String x a +:+ String c b)%string with (String x (a +:+ String c b)%string). cbn [split_on]. rewrite IH.
  destruct (Ascii.eqb x c); [done|]. by destruct (split_cons c a) as (y & ys & ->).
Qed.
Lemma split_join c s : forall l1 x l2, split_on c s = l1 ++ x :: l2 ->
  s = (foldr (fun y r => y +:+ String c r) "" l1 +:+ x +:+ foldr (fun y r => String c (y +:+ r)) "" l2)%string.
Proof.
  induction s as [|a s IH]; intros l1 x l2 H; cbn [split_on] in H.
  - destruct l1 as [|y [|]]; [|done..]. injection H as <- <-. done.
  - destruct (Ascii.eqb a c) eqn:Hac.
    + apply Ascii.eqb_eq in Hac as ->. destruct l1 as [|y l1].
      * injection H as <- <-. cbn. destruct (split_cons c s) as (y & ys & Hs). rewrite Hs. exact (f_equal (String c) (IH [] y ys Hs)).
      * injection H as <- H. exact (f_equal (String c) (IH _ _ _ H)).
    + destruct (split_cons c s) as (y & ys & Hs). rewrite Hs in H. destruct l1 as [|z l1].
      * injection H as <- <-. exact (f_equal (String a) (IH [] y ys Hs)).
      * injection H as <- ->. exact (f_equal (String a) (IH (y :: l1) x l2 Hs)).
Qed.
Lemma occurs_cons c x s : occurs c s -> occurs c (String x s).
Proof. intros (a & b & ->). by exists (String x a), b. Qed.
Lemma split_free s : forall x, x ∈ split_on "/" s -> ~ occurs "/" x.
Proof.
  assert (forall x, x = ""%string -> ~ occurs "/" x) as Hn.
  { intros x -> (a & b & H). by destruct a. }
  induction s as [|a s IH]; intros x Hx; cbn [split_on] in Hx.
  - apply elem_of_list_singleton in Hx. by apply Hn.
  - destruct (Ascii.eqb a "/") eqn:Ha.
    + apply elem_of_cons in Hx as [Hx|Hx]; [by apply Hn|by apply IH].
    + destruct (split_cons "/" s) as (y & ys & Hs). rewrite Hs in Hx, IH. apply elem_of_cons in Hx as [->|Hx]; [|apply IH; by right].
      intros ([|z u] & v & H); cbn in H.
      * injection H as -> _. done.
      * injection H as _ H. apply (IH y); [left|]. by exists u, v.
Qed.
Lemma split_alone_free s : ~ occurs "/" s -> split_on "/" s = [s].
Proof.
  induction s as [|a s IH]; intros H; [done|]. cbn [split_on]. destruct (Ascii.eqb a "/") eqn:Ha.
  - apply Ascii.eqb_eq in Ha as ->. destruct H. by exists ""%string, s.
  - rewrite IH; [done|]. intros Hs. by apply H, occurs_cons.
Qed.
Definition part (c : string) : Prop := c <> ""%string /\ c <> "."%string.
Lemma blank_parts t : blank_tail t -> t = ""%string \/ exists u, t = ("/" +:+ u)%string /\ filter part (split_on "/" u) = [].
Proof.
  induction 1 as [|t H IH|t H IH]; [by left|right..].
  - exists t. split; [done|]. destruct IH as [->|(u & -> & Hu)]; [done|]. exact Hu.
  - exists ("." +:+ t)%string. split; [done|]. destruct IH as [->|(u & -> & Hu)]; [done|].
    change ("." +:+ ("/" +:+ u))%string with ("." +:+ String "/" u)%string. rewrite split_slash, filter_app, Hu. done.
Qed.
Lemma blank_foldr l : filter part l = [] -> blank_tail (foldr (fun y r => String "/" (y +:+ r)) "" l).
Proof.
  induction l as [|x l IH]; intros H; [constructor|]. rewrite filter_cons in H. destruct (decide (part x)) as [|Hx]; [done|].
  cbn. specialize (IH H). destruct (decide (x = ""%string)) as [->|Hx1]; [by apply bt_slash|].
  destruct (decide (x = "."%string)) as [->|Hx2]; [by apply bt_dot|]. by destruct Hx.
Qed.
Lemma last_filter_split (l : list string) x : last (filter part l) = Some x ->
  exists l1 l2, l = l1 ++ x :: l2 /\ part x /\ filter part l2 = [].
Proof.
  induction l as [|y l IH]; intros H; [done|]. rewrite filter_cons in H. destruct (decide (part y)) as [Hy|Hy].
  - destruct (filter part l) as [|z zs] eqn:Hl.
    + injection H as <-. exists [], l. done.
    + destruct IH as (l1 & l2 & -> & H1 & H2); [exact H|]. by exists (y :: l1), l2.
  - destruct (IH H) as (l1 & l2 & -> & H1 & H2). by exists (y :: l1), l2.
Qed.
Lemma file_name_spec path name : file_name path = Some name <-> file_called path name.
Proof.
  unfold file_name. change (fun c : string => c <> ""%string /\ c <> "."%string) with part. split.
  - destruct (last _) as [c|] eqn:Hl; [|done]. destruct (String.eqb c "..") eqn:Hc; [done|]. intros [= <-].
    apply String.eqb_neq in Hc. destruct (last_filter_split _ _ Hl) as (l1 & l2 & Hs & [H1 H2] & H3).
    split; [done|]. split; [done|]. split; [done|].
    split; [apply (split_free path); rewrite Hs; apply elem_of_app; right; left|].
    exists (foldr (fun y r => y +:+ String "/" r) "" l1)%string, (foldr (fun y r => String "/" (y +:+ r)) "" l2)%string.
    split; [by apply split_join|]. split; [|by apply blank_foldr]. clear. induction l1 as [|y l1 IH]; [by left|right].
    cbn. destruct IH as [->|(d & ->)]; [by exists y|]. exists (y +:+ "/" +:+ d)%string. by rewrite <- !str_assoc.
  - intros (H1 & H2 & H3 & H4 & dir & tail & -> & Hd & Ht).
    assert (last (filter part (split_on "/" (name +:+ tail))) = Some name) as Hn.
    { assert (filter part [name] = [name]) as Hf by (rewrite filter_cons_True; [done|split; done]).
      destruct (blank_parts _ Ht) as [->|(u & -> & Hu)].
      - by rewrite str_nil_r, split_alone_free, Hf.
      - change (name +:+ ("/" +:+ u))%string with (name +:+ String "/" u)%string. by rewrite split_slash, filter_app, Hu, app_nil_r, split_alone_free, Hf. }
    assert (last (filter part (split_on "/" (dir +:+ name +:+ tail))) = Some name) as ->.
    { destruct Hd as [->|(d & ->)]; [done|]. rewrite <- str_assoc. change ("/" +:+ (name +:+ tail))%string with (String "/" (name +:+ tail)).
      rewrite split_slash, filter_app. rewrite last_app, Hn. done. }
    apply String.eqb_neq in H3. by rewrite H3.
Qed.
Lemma classify_spec e r : classify_role (en_file e) = Some r <-> named e r.
Proof.
  unfold classify_role, named. destruct (file_name (en_file e)) as [n|] eqn:Hf.
  2: { split; [done|]. intros (n & H & _). apply file_name_spec in H. by rewrite Hf in H. }
  pose proof (proj1 (file_name_spec _ _) Hf) as Hc. split.
  - intros H. exists n. split; [done|].
    destruct (contains "attester" n) eqn:Ha, (contains "proposer" n) eqn:Hp; try done; injection H as <-;
      rewrite <- !contains_spec, ?Ha, ?Hp; done.
  - intros (n' & Hn' & H). apply file_name_spec in Hn'. rewrite Hf in Hn'. injection Hn' as <-.
    destruct r; destruct H as [H1 H2]; apply contains_spec in H1; apply contains_false in H2; by rewrite H1, H2.
Qed.

Lemma app_cons c a b : (String c a +:+ b)%string = String c (a +:+ b).
Proof. reflexivity. Qed.
Lemma get_last d c : String.get (String.length d) (d +:+ String c "") = Some c.
Proof. induction d; [done|]. rewrite app_cons. cbn. auto. Qed.
Lemma str_len_app a b : String.length (a +:+ b) = (String.length a + String.length b)%nat.
Proof. induction a; [done|]. rewrite app_cons. cbn. by rewrite IHa. Qed.
Lemma str_snoc s n : String.length s = S n -> exists d c, s = (d +:+ String c "")%string /\ String.length d = n.
Proof.
  revert n; induction s as [|x s IH]; intros n H; [done|]. injection H as H.
  destruct n as [|n].
  - exists ""%string, x. destruct s; [done|discriminate].
  - destruct (IH n H) as (d & c & -> & Hd). exists (String x d), c. cbn. by rewrite Hd.
Qed.
Lemma located_spec dir e path : located dir e path <-> path = resolve_path dir (en_file e).
Proof.
  unfold located, resolve_path. destruct (String.prefix "/" (en_file e)) eqn:Hp.
  - apply prefix_spec in Hp as (rest & Hp). split.
    + intros [(r & _ & ->)|[H _]]; [done|]. by destruct (H rest).
    + intros ->. left. by exists rest.
  - assert (forall rest, en_file e <> ("/" +:+ rest)%string) as Hn.
    { intros rest H. assert (String.prefix "/" (en_file e) = true) by (apply prefix_spec; eauto). congruence. }
    destruct (String.length dir) as [|n] eqn:Hl.
    + destruct dir; [|discriminate]. split.
      * intros [(r & H & _)|(_ & [(_ & ->)|[(d & H & _)|(H & _)]])]; [by destruct (Hn r)|done|by destruct d|done].
      * intros ->. right. split; [done|]. by left.
    + destruct (str_snoc _ _ Hl) as (d & c & -> & Hd). rewrite <- Hd, get_last.
      case_bool_decide as Hc.
      * injection Hc as ->. split.
        -- intros [(r & H & _)|(_ & [(H & _)|[(d' & H & ->)|(_ & H & _)]])]; [by destruct (Hn r)|by destruct d|done|by destruct (H d)].
        -- intros ->. right. split; [done|]. right. left. by exists d.
      * assert (forall d', (d +:+ String c "" <> d' +:+ "/")%string) as Hne.
        { intros d' H. apply Hc. rewrite <- (get_last d c), H. f_equal.
          assert (String.length (d +:+ String c "") = String.length (d' +:+ "/")) as E by congruence.
          rewrite !str_len_app in E. cbn in E. assert (String.length d = String.length d') as -> by lia. apply get_last. }
        split.
        -- intros [(r & H & _)|(_ & [(H & _)|[(d' & H & ->)|(_ & _ & ->)]])]; [by destruct (Hn r)|by destruct d|by destruct (Hne d')|done].
        -- intros ->. right. split; [done|]. right. right. split; [by destruct d|done].
Qed.

(** ** Grouping *)
Definition slot_of (g : gmap N RoleSlots) (v : N) (r : Role) : option string :=
  s ← g !! v; match r with Attestation => rs_att s | Proposal => rs_prop s end.
Definition use_of (e : Entry) : N * option Role := (en_index e, classify_role (en_file e)).
Record grouped (dir : string) (l : list Entry) (g : gmap N RoleSlots) : Prop := {
  gr_role : forall e, e ∈ l -> classify_role (en_file e) <> None;
  gr_nodup : NoDup (map use_of l);
  gr_slot : forall v r path, slot_of g v r = Some path <->
            exists e, e ∈ l /\ use_of e = (v, Some r) /\ resolve_path dir (en_file e) = path;
  gr_dom : forall v, is_Some (g !! v) <-> exists e, e ∈ l /\ en_index e = v }.

Lemma grouped_nil dir : grouped dir [] ∅.
Proof.
  split.
  - intros e H. by apply elem_of_nil in H.
  - constructor.
  - intros v r path. unfold slot_of. rewrite lookup_empty. split; [done|]. intros (e & H & _). by apply elem_of_nil in H.
  - intros v. rewrite lookup_empty. split; [by intros []|]. intros (e & H & _). by apply elem_of_nil in H.
Qed.
Lemma slot_default g v r : slot_of g v r = match r with Attestation => rs_att (default (mkSlots None None) (g !! v))
                                           | Proposal => rs_prop (default (mkSlots None None) (g !! v)) end.
Proof. unfold slot_of. destruct (g !! v); by destruct r. Qed.
Global Instance Role_eqdec : EqDecision Role.
Proof. solve_decision. Defined.
Lemma group_entry_spec dir g e : group_entry dir g e =
  match classify_role (en_file e) with
  | None => None
  | Some r =>
      match slot_of g (en_index e) r with
      | Some _ => None
      | None => Some (<[en_index e := match r with
                        | Attestation => mkSlots (Some (resolve_path dir (en_file e))) (slot_of g (en_index e) Proposal)
                        | Proposal => mkSlots (slot_of g (en_index e) Attestation) (Some (resolve_path dir (en_file e)))
                        end]> g)
      end
  end.
Proof.
  unfold group_entry. destruct (classify_role (en_file e)) as [r|]; [|done].
  rewrite !slot_default. by destruct r.
Qed.
Lemma grouped_step dir l g e g' : grouped dir l g -> group_entry dir g e = Some g' -> grouped dir (l ++ [e]) g'.
Proof.
  intros [G1 G2 G3 G4]. rewrite group_entry_spec.
  destruct (classify_role (en_file e)) as [r|] eqn:Hr; [|done].
  destruct (slot_of g (en_index e) r) as [q|] eqn:Hs; [done|]. intros H. injection H as <-.
  split.
  - intros x [Hx|Hx]%elem_of_app; [by apply G1|]. apply elem_of_list_singleton in Hx as ->. by rewrite Hr.
  - rewrite map_app. apply NoDup_app. split_and!; [done| |constructor; [apply not_elem_of_nil|constructor]].
    intros u Hu Hu'. apply elem_of_list_singleton in Hu'. subst u. apply elem_of_list_fmap in Hu as (x & Hx & Hxl).
    assert (slot_of g (en_index e) r = Some (resolve_path dir (en_file x))) as Hc; [|by rewrite Hc in Hs].
    apply G3. exists x. split; [done|]. split; [|done]. rewrite <- Hx. unfold use_of. by rewrite Hr.
  - intros v r' path.
    assert (slot_of (<[en_index e := match r with
                        | Attestation => mkSlots (Some (resolve_path dir (en_file e))) (slot_of g (en_index e) Proposal)
                        | Proposal => mkSlots (slot_of g (en_index e) Attestation) (Some (resolve_path dir (en_file e)))
                        end]> g) v r' =
            if decide (v = en_index e /\ r' = r) then Some (resolve_path dir (en_file e)) else slot_of g v r') as ->.
    { unfold slot_of at 1. destruct (decide (v = en_index e)) as [->|Hv].
      - rewrite lookup_insert. cbn. destruct r, r'; (destruct (decide _) as [[? ?]|?]; [try done|try tauto]); done.
      - rewrite lookup_insert_ne by done. rewrite decide_False by tauto. done. }
    destruct (decide (v = en_index e /\ r' = r)) as [[-> ->]|Hn].
    + split.
      * intros [= <-]. exists e. split; [apply elem_of_app; right; by left|]. unfold use_of. by rewrite Hr.
      * intros (x & [Hx|Hx]%elem_of_app & Hu & Hp).
        -- assert (slot_of g (en_index e) r = Some path) as Hc by (apply G3; by exists x). by rewrite Hc in Hs.
        -- apply elem_of_list_singleton in Hx as ->. by rewrite Hp.
    + rewrite G3. split.
      * intros (x & Hx & H). exists x. split; [apply elem_of_app; by left|done].
      * intros (x & [Hx|Hx]%elem_of_app & Hu & Hp); [by exists x|]. apply elem_of_list_singleton in Hx as ->.
        unfold use_of in Hu. rewrite Hr in Hu. injection Hu as H1 H2. subst. tauto.
  - intros v. destruct (decide (v = en_index e)) as [->|Hv].
    + rewrite lookup_insert. split; [|eauto]. intros _. exists e. split; [apply elem_of_app; right; by left|done].
    + rewrite lookup_insert_ne by done. rewrite G4. split.
      * intros (x & Hx & H). exists x. split; [apply elem_of_app; by left|done].
      * intros (x & [Hx|Hx]%elem_of_app & H); [by exists x|]. apply elem_of_list_singleton in Hx as ->. by subst.
Qed.
Lemma group_entry_some dir l g e : grouped dir l g -> classify_role (en_file e) <> None ->
  use_of e ∉ map use_of l -> is_Some (group_entry dir g e).
Proof.
  intros [_ _ G3 _] Hc Hn. rewrite group_entry_spec.
  destruct (classify_role (en_file e)) as [r|] eqn:Hr; [|done].
  destruct (slot_of g (en_index e) r) as [q|] eqn:Hs; [|by eexists].
  destruct Hn. apply G3 in Hs as (x & Hx & Hu & _). apply elem_of_list_fmap. exists x. split; [|done].
  rewrite Hu. unfold use_of. by rewrite Hr.
Qed.
Lemma group_entries_sound dir l0 l g g' : grouped dir l0 g -> group_entries dir g l = Some g' -> grouped dir (l0 ++ l) g'.
Proof.
  revert l0 g; induction l as [|e l IH]; intros l0 g Hg; cbn.
  - intros [= <-]. by rewrite app_nil_r.
  - destruct (group_entry dir g e) as [g1|] eqn:H1; [|done]. intros H. rewrite cons_middle, app_assoc.
    eapply IH; [|exact H]. by eapply grouped_step.
Qed.
Lemma group_entries_complete dir l0 l g : grouped dir l0 g ->
  (forall e, e ∈ l -> classify_role (en_file e) <> None) -> NoDup (map use_of (l0 ++ l)) ->
  is_Some (group_entries dir g l).
Proof.
  revert l0 g; induction l as [|e l IH]; intros l0 g Hg Hr Hd; cbn; [by eexists|].
  destruct (group_entry_some dir l0 g e Hg) as [g1 H1].
  - apply Hr. left.
  - rewrite map_app in Hd. apply NoDup_app in Hd as (_ & Hd & _). intros Hx. apply (Hd _ Hx). left.
  - rewrite H1. apply (IH (l0 ++ [e])).
    + by eapply grouped_step.
    + intros x Hx. apply Hr. by right.
    + by rewrite <- app_assoc.
Qed.

(** ** Loading *)
Section Load.
  Context {K : Type} (disk : string -> option bytes) (from_bytes : bytes -> option K).
  Local Notation load_all := (load_all disk from_bytes).
  Local Notation load_pair := (load_pair disk from_bytes).
  Lemma load_all_sound g keys : load_all g = Some keys ->
    (forall v s, g !! v = Some s -> is_Some (load_pair s)) /\ forall v, keys !! v = s ← g !! v; load_pair s.
  Proof.
    unfold KeyFiles.load_all. intros H. destruct (mapM _ _) as [k|] eqn:Hk; [|done]. injection H as <-.
    apply mapM_Some in Hk.
    assert (k.*1 = (map_to_list g).*1) as Hf.
    { induction Hk as [|x y l k Hx _ IH]; [done|]. cbn. f_equal; [|done]. destruct (load_pair x.2); [|done]. by injection Hx as <-. }
    assert (NoDup k.*1) as Hn by (rewrite Hf; apply NoDup_fst_map_to_list).
    assert (forall v s, g !! v = Some s -> exists kp, load_pair s = Some kp /\ (v, kp) ∈ k) as H1.
    { intros v s Hv. apply elem_of_map_to_list, elem_of_list_lookup_1 in Hv as (i & Hv).
      destruct (Forall2_lookup_l _ _ _ _ _ Hk Hv) as (y & Hy & E). cbn in E.
      destruct (load_pair s) as [kp|]; [|done]. injection E as <-. exists kp. split; [done|]. by eapply elem_of_list_lookup_2. }
    split; [intros v s Hv; destruct (H1 v s Hv) as (kp & -> & _); by eexists|].
    intros v. destruct (g !! v) as [s|] eqn:Hv; cbn.
    + destruct (H1 v s Hv) as (kp & -> & Hin). by apply elem_of_list_to_map_1.
    + apply not_elem_of_list_to_map_1. rewrite Hf. intros Hin.
      apply elem_of_list_fmap in Hin as ([v' s] & Hv' & Hin). cbn in Hv'. subst v'. apply elem_of_map_to_list in Hin. by rewrite Hv in Hin.
  Qed.
  Lemma load_all_complete g keys :
    (forall v s, g !! v = Some s -> is_Some (load_pair s)) -> (forall v, keys !! v = s ← g !! v; load_pair s) ->
    load_all g = Some keys.
  Proof.
    intros H1 H2.
    assert (is_Some (load_all g)) as [k Hk].
    { unfold KeyFiles.load_all. apply fmap_is_Some, mapM_is_Some, Forall_forall. intros [v s] Hin.
      apply elem_of_map_to_list in Hin. destruct (H1 v s Hin) as (kp & Hl). cbn. rewrite Hl. by eexists. }
    rewrite Hk. f_equal. apply map_eq. intros v. rewrite H2. by apply load_all_sound.
  Qed.
  Lemma load_pair_spec s a p : load_pair s = Some (a, p) <->
    exists x y, rs_att s = Some x /\ rs_prop s = Some y /\ load_key disk from_bytes x = Some a /\ load_key disk from_bytes y = Some p.
  Proof.
    unfold KeyFiles.load_pair. split.
    - intros H. apply bind_Some in H as (x & -> & H). apply bind_Some in H as (y & -> & H).
      apply bind_Some in H as (a' & Ha & H). apply bind_Some in H as (p' & Hp & [= <- <-]). by exists x, y.
    - intros (x & y & -> & -> & Ha & Hp). cbn. by rewrite Ha; cbn; rewrite Hp.
  Qed.
  Lemma holds_spec dir e k : holds_key disk from_bytes dir e k <-> load_key disk from_bytes (resolve_path dir (en_file e)) = Some k.
  Proof.
    unfold holds_key, load_key. split.
    - intros (path & b & Hl & Hd & Hf). apply located_spec in Hl as <-. by rewrite Hd.
    - intros H. apply bind_Some in H as (b & Hd & Hf). exists (resolve_path dir (en_file e)), b. split; [by apply located_spec|done].
  Qed.

  Lemma listed_spec dir l keys :
    (exists g, group_entries dir ∅ l = Some g /\ load_all g = Some keys) <-> listed_keys disk from_bytes dir l keys.
  Proof.
    split.
    - intros (g & Hg & Hl). apply (group_entries_sound dir [] l ∅ g (grouped_nil dir)) in Hg as [G1 G2 G3 G4].
      cbn [app] in *. destruct (load_all_sound _ _ Hl) as [L1 L2].
      split.
      + intros e He. destruct (classify_role (en_file e)) as [r|] eqn:Hr; [|by destruct (G1 e He)].
        exists r. by apply classify_spec.
      + intros i j e e' r Hi Hj Hx Hn Hn'. apply classify_spec in Hn, Hn'.
        eapply (NoDup_lookup _ i j (use_of e) G2); rewrite list_lookup_fmap; [by rewrite Hi|].
        rewrite Hj. cbn. unfold use_of. by rewrite Hx, Hn, Hn'.
      + intros e He. rewrite L2. destruct (proj2 (G4 (en_index e))) as [s Hs]; [eauto|]. rewrite Hs. cbn. by eapply L1.
      + intros v a p Hv. rewrite L2 in Hv. apply bind_Some in Hv as (s & Hs & Hp).
        apply load_pair_spec in Hp as (x & y & Hx & Hy & Ha & Hp).
        assert (slot_of g v Attestation = Some x) as S1 by (unfold slot_of; by rewrite Hs).
        assert (slot_of g v Proposal = Some y) as S2 by (unfold slot_of; by rewrite Hs).
        apply G3 in S1 as (e1 & E1 & [= U1 V1] & P1). apply G3 in S2 as (e2 & E2 & [= U2 V2] & P2).
        split; [exists e1|exists e2]; (split; [done|]; split; [done|]; split; [by apply classify_spec|]; apply holds_spec; congruence).
    - intros [L1 L2 L3 L4].
      assert (forall e, e ∈ l -> classify_role (en_file e) <> None) as Hr.
      { intros e He. destruct (L1 e He) as (r & Hn). apply classify_spec in Hn. by rewrite Hn. }
      assert (NoDup (map use_of l)) as Hd.
      { apply NoDup_alt. intros i j u Hi Hj. rewrite list_lookup_fmap in Hi, Hj.
        apply fmap_Some in Hi as (e & Hi & ->). apply fmap_Some in Hj as (e' & Hj & [= Hx Hc]).
        destruct (L1 e) as (r & Hn); [by eapply elem_of_list_lookup_2|]. pose proof Hn as Hn'.
        apply classify_spec in Hn'. rewrite Hc in Hn'. apply classify_spec in Hn'. by eapply L2. }
      destruct (group_entries_complete dir [] l ∅ (grouped_nil dir) Hr Hd) as [g Hg]. exists g. split; [done|].
      apply (group_entries_sound dir [] l ∅ g (grouped_nil dir)) in Hg as [_ _ G3 G4]. cbn [app] in *.
      assert (forall e e', e ∈ l -> e' ∈ l -> use_of e = use_of e' -> e = e') as Hu.
      { intros e e' He He' Hx. apply elem_of_list_lookup_1 in He as (i & Hi). apply elem_of_list_lookup_1 in He' as (j & Hj).
        assert (i = j) as <-; [|congruence].
        eapply (NoDup_lookup _ i j (use_of e) Hd); rewrite list_lookup_fmap; [by rewrite Hi|rewrite Hj; cbn; congruence]. }
      assert (forall v s, g !! v = Some s -> exists a p, keys !! v = Some (a, p) /\ load_pair s = Some (a, p)) as Hs.
      { intros v s Hv. destruct (proj1 (G4 v)) as (e0 & He0 & <-); [eauto|].
        destruct (L3 e0 He0) as [[a p] Hk]. exists a, p. split; [done|].
        destruct (L4 _ _ _ Hk) as [(e1 & E1 & X1 & N1 & K1) (e2 & E2 & X2 & N2 & K2)].
        apply classify_spec in N1, N2. apply holds_spec in K1, K2.
        assert (slot_of g (en_index e0) Attestation = Some (resolve_path dir (en_file e1))) as S1.
        { apply G3. exists e1. unfold use_of. by rewrite N1, X1. }
        assert (slot_of g (en_index e0) Proposal = Some (resolve_path dir (en_file e2))) as S2.
        { apply G3. exists e2. unfold use_of. by rewrite N2, X2. }
        unfold slot_of in S1, S2. rewrite Hv in S1, S2. cbn in S1, S2.
        apply load_pair_spec. eexists _, _. split; [exact S1|]. split; [exact S2|]. done. }
      apply load_all_complete.
      + intros v s Hv. destruct (Hs v s Hv) as (a & p & _ & ->). by eexists.
      + intros v. destruct (g !! v) as [s|] eqn:Hv; cbn.
        * destruct (Hs v s Hv) as (a & p & -> & ->). done.
        * destruct (keys !! v) as [[a p]|] eqn:Hk; [|done].
          destruct (L4 _ _ _ Hk) as [(e1 & E1 & X1 & _) _].
          destruct (proj2 (G4 v)) as [s Hs']; [eauto|]. by rewrite Hv in Hs'.
  Qed.

  Lemma loads_pf (m : gmap string (list Entry)) dir node keys :
    read_validator_keys disk from_bytes (Some m) dir node = Some keys <->
    (forall n l e, m !! n = Some l -> e ∈ l -> pubkey_ok (en_pubkey e) = true) /\
    exists l, m !! node = Some l /\ listed_keys disk from_bytes dir l keys.
  Proof.
    unfold read_validator_keys. destruct (forallb _ (map_to_list m)) eqn:Hp; cbn [negb].
    - assert (forall n l e, m !! n = Some l -> e ∈ l -> pubkey_ok (en_pubkey e) = true) as Hk.
      { intros n l e Hn He. rewrite forallb_forall in Hp. apply elem_of_map_to_list, elem_of_list_In in Hn.
        specialize (Hp _ Hn). cbn in Hp. rewrite forallb_forall in Hp. by apply Hp, elem_of_list_In. }
      destruct (m !! node) as [l|].
      + destruct (group_entries dir ∅ l) as [g|] eqn:Hg.
        * split.
          -- intros H. split; [done|]. exists l. split; [done|]. apply listed_spec. eauto.
          -- intros (_ & l' & [= <-] & H). apply listed_spec in H as (g' & Hg' & Hl). rewrite Hg in Hg'. by injection Hg' as <-.
        * split; [done|]. intros (_ & l' & [= <-] & H). apply listed_spec in H as (g' & Hg' & Hl). by rewrite Hg in Hg'.
      + split; [done|]. by intros (_ & l & H & _).
    - split; [done|]. intros [Hk _]. exfalso. apply Bool.not_true_iff_false in Hp. apply Hp.
      rewrite forallb_forall. intros [n l] Hn. apply elem_of_list_In, elem_of_map_to_list in Hn. cbn.
      rewrite forallb_forall. intros e He. eapply Hk; [exact Hn|by apply elem_of_list_In].
  Qed.
End Load.

Lemma group_entries_files dir l l' g : map (fun e => (en_index e, en_file e)) l = map (fun e => (en_index e, en_file e)) l' ->
  group_entries dir g l = group_entries dir g l'.
Proof.
  revert l' g; induction l as [|e l IH]; intros [|e' l'] g H; try done. cbn in H. injection H as H1 H2 H3. cbn.
  assert (group_entry dir g e = group_entry dir g e') as -> by (unfold group_entry; by rewrite H1, H2).
  destruct (group_entry dir g e'); [|done]. by apply IH.
Qed.
Lemma unchecked_pf K (disk : string -> option bytes) (from_bytes : bytes -> option K) l l' dir node :
  map (fun e => (en_index e, en_file e)) l = map (fun e => (en_index e, en_file e)) l' ->
  (forall e, e ∈ l -> pubkey_ok (en_pubkey e) = true) -> (forall e, e ∈ l' -> pubkey_ok (en_pubkey e) = true) ->
  read_validator_keys disk from_bytes (Some {[ node := l ]}) dir node =
  read_validator_keys disk from_bytes (Some {[ node := l' ]}) dir node.
Proof.
  intros H H1 H2. unfold read_validator_keys. rewrite !map_to_list_singleton. cbn [forallb snd].
  rewrite !lookup_singleton. rewrite (group_entries_files dir l l' ∅ H).
  assert (forall l, (forall e, e ∈ l -> pubkey_ok (en_pubkey e) = true) -> forallb (fun e => pubkey_ok (en_pubkey e)) l = true) as G.
  { intros k Hk. rewrite forallb_forall. intros e He. by apply Hk, elem_of_list_In. }
  by rewrite (G l H1), (G l' H2).
Qed.
Arguments unchecked_pf {K} disk from_bytes l l' dir node.
