From Coq Require Import Ascii String.
From Verif Require Import CollectorSpec.
Local Open Scope N_scope.

Lemma cexec_app c l1 l2 : cexec c (l1 ++ l2) =
  match cexec c l1 with
  | None => None
  | Some (c1, o1) => match cexec c1 l2 with None => None | Some (c2, o2) => Some (c2, (o1 ++ o2)%list) end
  end.
Proof.
  revert c. induction l1 as [|e l1 IH]; intros c; cbn [cexec app].
  - by destruct (cexec c l2) as [[]|].
  - destruct (cstep c e) as [[c1 o]|]; [|done]. rewrite IH. destruct (cexec c1 l1) as [[c2 o1]|]; [|done].
    destruct (cexec c2 l2) as [[c3 o2]|]; [|done]. by rewrite <- app_assoc.
Qed.
Lemma cexec_snoc c l e c2 out : cexec c (l ++ [e]) = Some (c2, out) ->
  exists c1 o1 o, cexec c l = Some (c1, o1) /\ cstep c1 e = Some (c2, o) /\ out = (o1 ++ option_list o)%list.
Proof.
  rewrite cexec_app. destruct (cexec c l) as [[c1 o1]|] eqn:E; [|done]. cbn [cexec].
  destruct (cstep c1 e) as [[c' o]|] eqn:Es; [|done]. intros [= -> <-]. exists c1, o1, o.
  split; [done|]. split; [done|]. by rewrite app_nil_r.
Qed.

Fixpoint ongoing (h : bool) (l : list CEv) : bool :=
  match l with
  | [] => h
  | ERefused :: l' => ongoing false l'
  | EAccepted _ :: l' => ongoing false l'
  | EBeat _ :: l' => ongoing true l'
  | EEnd _ :: l' => ongoing false l'
  | _ :: l' => ongoing h l'
  end.
Lemma went_snoc h l e : went h (l ++ [e]) = (went h l ++
  match e with ERefused => [false] | EEnd _ => [ongoing h l] | _ => [] end)%list.
Proof. revert h. induction l as [|x l IH]; intros h; [by destruct e|]. destruct x; cbn; rewrite IH; done. Qed.
Lemma ongoing_snoc h l e : ongoing h (l ++ [e]) =
  match e with ERefused | EAccepted _ | EEnd _ => false | EBeat _ => true | _ => ongoing h l end.
Proof. revert h. induction l as [|x l IH]; intros h; [by destruct e|]. destruct x; cbn; apply IH. Qed.

Lemma since_good l : since (l ++ [true]) 0.
Proof. left. by exists l. Qed.
Lemma since_bad l k : since l k -> since (l ++ [false]) (S k).
Proof.
  assert (forall n, replicate n false ++ [false] = replicate (S n) false)%list as R.
  { intros n. symmetry. apply replicate_S_end. }
  intros [[l' ->]| ->].
  - left. exists l'. rewrite <- app_assoc. cbn [app]. by rewrite R.
  - right. apply R.
Qed.
Lemma since_first : since [false] 0.
Proof. by right. Qed.

Definition ramped (k : nat) : N := N.min 10000 (250 * 2 ^ N.of_nat k).
Lemma ramped_S k : N.min (ramped k * 2) 10000 = ramped (S k).
Proof. unfold ramped. rewrite Nat2N.inj_succ, N.pow_succ_r'. lia. Qed.
Lemma ramped_0 : ramped 0 = 250.
Proof. reflexivity. Qed.
Lemma ramped_down k : (10000 <=? ramped k) = (6 <=? N.of_nat k).
Proof.
  unfold ramped. destruct (N.leb_spec 6 (N.of_nat k)) as [H|H].
  - apply N.leb_le. assert (2 ^ 6 <= 2 ^ N.of_nat k) as G by (apply N.pow_le_mono_r; lia).
    change (2 ^ 6) with 64 in G. lia.
  - apply N.leb_gt. assert (2 ^ N.of_nat k <= 2 ^ 5) as G by (apply N.pow_le_mono_r; lia).
    change (2 ^ 5) with 32 in G. lia.
Qed.

Definition idle_state (l : list CEv) (s : option NodeState) : Prop :=
  (attempts l = [] /\ s = Some Reconnecting) \/
  exists k, since (attempts l) k /\ s = Some (if 6 <=? N.of_nat k then Down else Reconnecting).
Record cinv (n : string) (l : list CEv) (c : Coll) (out : list NodeStatus) : Prop := {
  ci_name : co_name c = n;
  ci_node : Forall (fun s => ns_node s = n) out;
  ci_last : co_last c = ns_state <$> last out;
  ci_delay : (attempts l = [] /\ co_delay c = 250) \/ exists k, since (attempts l) k /\ co_delay c = ramped (S k);
  ci_phase : match co_phase c with
             | Spawned => out = [] /\ attempts l = []
             | Dialing => idle_state l (co_last c)
             | Streaming h _ _ => co_last c = Some Connected /\ h = ongoing false l
             | Sleeping d => idle_state l (co_last c) /\ exists k, since (attempts l) k /\ d = ramped k
             end }.
Lemma over_ok n l c out h e :
  cinv n l c out -> attempts (l ++ [e]) = (attempts l ++ [h])%list ->
  let r := attempt_over c h in cinv n (l ++ [e]) r.1 (out ++ option_list r.2) /\ exists d, co_phase r.1 = Sleeping d.
Proof.
  intros [I1 I2 I3 I4 I5] Ha. cbn zeta.
  assert (exists k, since (attempts (l ++ [e])) k /\ record (co_delay c) h = ramped k) as (k & Hk & Hr).
  { rewrite Ha. destruct h; cbn [record].
    - exists O. split; [apply since_good|done].
    - destruct I4 as [[-> ->]|(k & Hs & ->)].
      + exists O. by split; [apply since_first|].
      + exists (S k). by split; [apply since_bad|]. }
  unfold attempt_over. rewrite Hr. unfold advance_delay, MAX_BACKOFF. rewrite ramped_S, ramped_down.
  set (st := if 6 <=? N.of_nat k then Down else Reconnecting). unfold publish_change, publish. cbn [co_last co_name co_delay].
  case_bool_decide as Hl; cbn; (split; [|by eexists]).
  - rewrite app_nil_r. split; try done; cbn.
    + right. eauto.
    + split; [right; eauto|eauto].
  - split; try done; cbn.
    + apply Forall_app. split; [done|]. by repeat constructor.
    + by rewrite last_snoc.
    + right. eauto.
    + split; [right; eauto|eauto].
Qed.
Lemma idle_same l l' s : attempts l' = attempts l -> idle_state l s -> idle_state l' s.
Proof. unfold idle_state. intros ->. done. Qed.
Lemma cinv_ok n l c out : cexec (new_coll n) l = Some (c, out) -> cinv n l c out.
Proof.
  revert c out. induction l as [|e l IH] using rev_ind; intros c2 out.
  - intros [= <- <-]. split; try done. by left.
  - intros (c & o1 & o & Hx & Hs & ->)%cexec_snoc. specialize (IH _ _ Hx). pose proof IH as [I1 I2 I3 I4 I5].
    assert (attempts (l ++ [e]) = (attempts l ++ match e with ERefused => [false] | EEnd _ => [ongoing false l] | _ => [] end)%list) as Ha by apply went_snoc.
    unfold cstep in Hs. destruct e; destruct (co_phase c) as [| |h m w|d] eqn:Hp; try discriminate Hs.
    + destruct I5 as [-> I5]. cbn in I3. rewrite app_nil_r in Ha.
      unfold publish_change, publish in Hs. cbn [co_last set_phase] in Hs. rewrite I3 in Hs. cbn in Hs. injection Hs as <- <-.
      split; cbn; try done.
      * by repeat constructor.
      * by rewrite Ha.
      * left. by rewrite Ha.
    + destruct (over_ok n l c o1 false ERefused IH Ha) as [G _]. injection Hs as Hs. rewrite Hs in G. exact G.
    + injection Hs as <- <-. rewrite app_nil_r in Ha. split; cbn; try done.
      * apply Forall_app. split; [done|]. by repeat constructor.
      * by rewrite last_snoc.
      * by rewrite Ha.
      * by rewrite ongoing_snoc.
    + injection Hs as <- <-. rewrite app_nil_r in Ha. cbn [option_list]. rewrite app_nil_r. split; cbn; try done.
      * by rewrite Ha.
      * by rewrite ongoing_snoc.
    + injection Hs as <- <-. rewrite app_nil_r in Ha. split; cbn; try done.
      * apply Forall_app. split; [done|]. by repeat constructor.
      * by rewrite last_snoc.
      * by rewrite Ha.
      * by rewrite ongoing_snoc.
    + destruct I5 as [_ ->]. destruct (over_ok n l c o1 _ (EEnd error) IH Ha) as [G _]. injection Hs as Hs. rewrite Hs in G. exact G.
    + injection Hs as <- <-. rewrite app_nil_r in Ha. cbn [option_list]. rewrite app_nil_r. split; cbn; try done.
      * by rewrite Ha.
      * eapply idle_same; [done|]. by destruct I5.
Qed.

Lemma over_sleeps c b : exists d, co_phase (attempt_over c b).1 = Sleeping d.
Proof. unfold attempt_over, advance_delay. destruct (publish_change _ _). eexists. reflexivity. Qed.
Lemma delay_pf n l e c out : cexec (new_coll n) (l ++ [e]) = Some (c, out) -> e = ERefused \/ (exists x, e = EEnd x) ->
  exists k, since (attempts (l ++ [e])) k /\ co_phase c = Sleeping (N.min 10000 (250 * 2 ^ N.of_nat k)).
Proof.
  intros H He. pose proof (cinv_ok _ _ _ _ H) as [_ _ _ _ I].
  assert (exists d, co_phase c = Sleeping d) as [d Hd].
  { apply cexec_snoc in H as (c1 & o1 & o & _ & Hs & _). unfold cstep in Hs.
    pose proof (over_sleeps c1) as G.
    destruct He as [->|[x ->]]; destruct (co_phase c1) as [| |h m w|d]; try discriminate Hs.
    - specialize (G false). injection Hs as Hs. rewrite Hs in G. exact G.
    - specialize (G h). injection Hs as Hs. rewrite Hs in G. exact G. }
  rewrite Hd in I. destruct I as [_ (k & Hk & ->)]. by exists k.
Qed.
Lemma shown_pf n l c out : cexec (new_coll n) l = Some (c, out) ->
  match co_phase c with
  | Spawned => out = []
  | Streaming _ _ _ => ns_state <$> last out = Some Connected
  | Dialing | Sleeping _ =>
      (attempts l = [] /\ ns_state <$> last out = Some Reconnecting) \/
      exists k, since (attempts l) k /\ ns_state <$> last out = Some (if 6 <=? N.of_nat k then Down else Reconnecting)
  end.
Proof.
  intros H. destruct (cinv_ok _ _ _ _ H) as [_ _ I _ I5]. rewrite I in I5.
  destruct (co_phase c); [by destruct I5|exact I5|by destruct I5|by destruct I5].
Qed.

Definition calm (out : list NodeStatus) : Prop :=
  forall x a b y, out = (x ++ a :: b :: y)%list -> ns_state a = ns_state b -> ns_state a = Connected.
Lemma calm_snoc out s : calm out -> (ns_state <$> last out = Some (ns_state s) -> ns_state s = Connected) -> calm (out ++ [s]).
Proof.
  intros H Hs x a b y Heq Hab. destruct y as [|z y _] using rev_ind.
  - assert (out = x ++ [a] /\ s = b)%list as [-> ->].
    { apply app_inj_tail. rewrite <- app_assoc. done. }
    rewrite last_snoc in Hs. rewrite Hab. apply Hs. cbn. by rewrite Hab.
  - assert (out = x ++ a :: b :: y)%list as Ho.
    { change (x ++ a :: b :: y ++ [z])%list with (x ++ (a :: b :: y) ++ [z])%list in Heq. rewrite app_assoc in Heq. by apply app_inj_tail in Heq as [? _]. }
    by eapply H.
Qed.
Lemma calm_change c out s : co_last c = ns_state <$> last out -> calm out -> calm (out ++ option_list (publish_change c s).2).
Proof.
  intros Hl H. unfold publish_change. case_bool_decide as Hd; cbn.
  - by rewrite app_nil_r.
  - apply calm_snoc; [done|]. cbn. intros G. by rewrite Hl in Hd.
Qed.
Lemma calm_pf n l c out : cexec (new_coll n) l = Some (c, out) -> calm out.
Proof.
  revert c out. induction l as [|e l IH] using rev_ind; intros c2 out.
  - intros [= <- <-] x a b y H. by destruct x.
  - intros (c & o1 & o & Hx & Hs & ->)%cexec_snoc. specialize (IH _ _ Hx). destruct (cinv_ok _ _ _ _ Hx) as [_ _ I3 _ _].
    assert (forall h, calm (o1 ++ option_list (attempt_over c h).2)) as Ho.
    { clear Hs. intros h. unfold attempt_over, advance_delay. match goal with |- context [publish_change ?c' ?s] => pose proof (calm_change c' o1 s I3 IH) as G; destruct (publish_change c' s) end. done. }
    unfold cstep in Hs. destruct e; destruct (co_phase c) as [| |h m w|d] eqn:Hp; try discriminate Hs.
    + injection Hs as Hs. assert (o = (publish_change (set_phase c Dialing) Reconnecting).2) as -> by (by rewrite Hs). by apply calm_change.
    + injection Hs as Hs. specialize (Ho false). by rewrite Hs in Ho.
    + injection Hs as <- <-. by apply calm_snoc.
    + injection Hs as <- <-. cbn. by rewrite app_nil_r.
    + injection Hs as <- <-. by apply calm_snoc.
    + injection Hs as Hs. specialize (Ho h). by rewrite Hs in Ho.
    + injection Hs as <- <-. cbn. by rewrite app_nil_r.
Qed.
