From Coq Require Import Ascii String.
From Verif Require Import OptionsSpec CollectorMore TextProofs GossipProofs.
Local Open Scope N_scope.

Lemma space_iff c : is_blank c = true <-> N_of_ascii c = 32 \/ 9 <= N_of_ascii c <= 13.
Proof. unfold is_blank. cbv zeta. rewrite orb_true_iff, andb_true_iff, !N.leb_le, N.eqb_eq. lia. Qed.
Lemma trim_start_blank l k : Forall (fun c => is_blank c = true) l -> trim_start (l ++ k) = trim_start k.
Proof. induction 1 as [|c l Hc Hl IH]; [done|]. cbn. by rewrite Hc. Qed.
Lemma blank_spaces s : blank s -> Forall (fun c => is_blank c = true) (list_ascii_of_string s).
Proof. intros H. eapply Forall_impl; [exact H|]. intros c. apply space_iff. Qed.
Lemma ascii_inj s t : list_ascii_of_string s = list_ascii_of_string t -> s = t.
Proof. intros H. apply (f_equal string_of_list_ascii) in H. by rewrite !string_of_list_ascii_of_string in H. Qed.
Lemma not_blank1 c : ~ blank (String c EmptyString) -> is_blank c = false.
Proof. intros H. destruct (is_blank c) eqn:E; [|done]. exfalso. apply H. constructor; [by apply space_iff|constructor]. Qed.
Lemma trim_pf a s b : blank a -> blank b -> tight s -> trim (a ++ s ++ b) = s.
Proof.
  intros Ha Hb [H1 H2]. unfold trim. rewrite !ascii_app, trim_start_blank by (by apply blank_spaces).
  assert (trim_start (list_ascii_of_string s ++ list_ascii_of_string b) =
    if decide (s = EmptyString) then [] else list_ascii_of_string s ++ list_ascii_of_string b)%list as ->.
  { destruct s as [|c s].
    - rewrite decide_True by done. rewrite <- (app_nil_r (list_ascii_of_string b)). cbn [list_ascii_of_string app].
      by rewrite trim_start_blank by (by apply blank_spaces).
    - rewrite decide_False by done. cbn. by rewrite (not_blank1 c (H1 c s eq_refl)). }
  destruct (decide (s = EmptyString)) as [->|Hs]; [done|].
  rewrite rev_app_distr, trim_start_blank.
  2:{ apply Forall_rev. by apply blank_spaces. }
  destruct (rev (list_ascii_of_string s)) as [|x r] eqn:El.
  - exfalso. apply Hs, ascii_inj. apply (f_equal (@rev ascii)) in El. by rewrite rev_involutive in El.
  - assert (list_ascii_of_string s = rev r ++ [x])%list as Es.
    { apply (f_equal (@rev ascii)) in El. by rewrite rev_involutive in El. }
    cbn [trim_start]. rewrite (not_blank1 x).
    + cbn [rev]. rewrite <- Es. apply string_of_list_ascii_of_string.
    + apply (H2 (string_of_list_ascii (rev r)) x). apply ascii_inj. by rewrite ascii_app, list_ascii_of_string_of_list_ascii.
Qed.
Lemma blank_trim a : blank a -> trim a = EmptyString.
Proof.
  intros H. assert (a = a ++ "" ++ "")%string as ->.
  { apply ascii_inj. rewrite !ascii_app. cbn. by rewrite app_nil_r. }
  apply trim_pf; [done|constructor|]. split; [done|]. intros t c Ht. exfalso. destruct t; done.
Qed.
Lemma clean_app l k : clean_checkpoint_urls (l ++ k) = (clean_checkpoint_urls l ++ clean_checkpoint_urls k)%list.
Proof. unfold clean_checkpoint_urls. by rewrite map_app, List.filter_app. Qed.
Lemma clean_one a s b : blank a -> blank b -> tight s -> s <> EmptyString -> clean_checkpoint_urls [(a ++ s ++ b)%string] = [s].
Proof. intros Ha Hb Hs Hn. unfold clean_checkpoint_urls. cbn. rewrite trim_pf by done. by apply String.eqb_neq in Hn as ->. Qed.
Lemma clean_blank a : blank a -> clean_checkpoint_urls [a] = [].
Proof. intros H. unfold clean_checkpoint_urls. cbn. by rewrite blank_trim. Qed.

Lemma strip_list_app p s : strip_list p (p ++ s) = Some s.
Proof. induction p as [|a p IH]; [done|]. cbn. by destruct (ascii_dec a a). Qed.
Lemma strip_list_inv p : forall s r, strip_list p s = Some r -> s = (p ++ r)%list.
Proof.
  induction p as [|a p IH]; intros s r H; [by injection H as ->|]. destruct s as [|b s]; [done|]. cbn in H.
  destruct (ascii_dec a b) as [->|]; [|done]. cbn. f_equal. by apply IH.
Qed.
Lemma strip_end_app p s : strip_end p (s ++ p) = Some s.
Proof. unfold strip_end. by rewrite rev_app_distr, strip_list_app, rev_involutive. Qed.
Lemma strip_end_none p s : (forall r, s <> r ++ p)%list -> strip_end p s = None.
Proof.
  intros H. unfold strip_end. destruct (strip_list (rev p) (rev s)) as [r|] eqn:E; [|done]. exfalso.
  apply strip_list_inv in E. apply (f_equal (@rev ascii)) in E. rewrite rev_involutive, rev_app_distr, rev_involutive in E. by apply (H (rev r)).
Qed.
Lemma no_slash (u : string) : ~ ends_with "/" u -> forall v, list_ascii_of_string u <> (v ++ ["/"%char])%list.
Proof.
  intros H v E. apply H. exists (string_of_list_ascii v). apply ascii_inj. by rewrite ascii_app, list_ascii_of_string_of_list_ascii.
Qed.
Lemma base_plain u k : ~ ends_with "/" u -> ~ ends_with "/lean/v0/states/finalized" u -> normalize_base_url (u ++ slashes k) = u.
Proof.
  intros H1 H2. unfold normalize_base_url, slashes. rewrite ascii_app, list_ascii_of_string_of_list_ascii, trim_slashes by (by apply no_slash).
  rewrite strip_end_none; [by rewrite string_of_list_ascii_of_string|]. intros r Hr. apply H2. exists (string_of_list_ascii r).
  apply ascii_inj. by rewrite ascii_app, list_ascii_of_string_of_list_ascii.
Qed.
Lemma base_legacy u k : normalize_base_url (u ++ "/lean/v0/states/finalized" ++ slashes k) = u.
Proof.
  unfold normalize_base_url, slashes. rewrite <- str_app_assoc, ascii_app, list_ascii_of_string_of_list_ascii, trim_slashes.
  - rewrite ascii_app. change FINALIZED_STATE_PATH with "/lean/v0/states/finalized"%string. by rewrite strip_end_app, string_of_list_ascii_of_string.
  - intros v Hv. rewrite ascii_app in Hv. apply (f_equal (@rev ascii)) in Hv. rewrite !rev_app_distr in Hv. by cbn in Hv.
Qed.
Lemma committee_iff cli file c : committee_count cli file = Ok c <->
  1 <= c /\ (cli = Some c \/ cli = None /\ (file = Some c \/ file = None /\ c = 1)).
Proof.
  unfold committee_count. destruct cli as [[|x]|].
  - split; [done|]. intros [H [[= <-]|[? _]]]; [lia|done].
  - destruct (N.leb_spec 1 (N.pos x)); [|lia]. split; [intros [= <-]; auto|]. intros [_ [[= <-]|[? _]]]; done.
  - destruct file as [y|].
    + destruct (N.leb_spec 1 y); (split; [try (intros [= <-]; auto); try done|]).
      * by intros [_ [?|[_ [[= <-]|[? _]]]]].
      * intros [? [?|[_ [[= <-]|[? _]]]]]; try done; lia.
    + cbn. split; [intros [= <-]; split; [lia|auto]|]. by intros [_ [?|[_ [?|[_ ->]]]]].
Qed.
Lemma committee_no_panic cli file : committee_count cli file <> Panic.
Proof. unfold committee_count. destruct cli as [[|x]|]; [done|by destruct (_ <=? _)..]. Qed.
Lemma ox_trim k s : (forall t, s <> ("0x" ++ t)%string) -> trim_start_0x (ox k ++ s) = s.
Proof.
  intros H. induction k as [|k IH].
  - change (ox 0 ++ s)%string with s. destruct s as [|a [|b s]]; [done|done|]. cbn. destruct (ascii_dec a "0") as [->|]; [|done].
    destruct (ascii_dec b "x") as [->|]; [|done]. by destruct (H s).
  - change (ox (S k) ++ s)%string with (String "0" (String "x" (ox k ++ s))). cbn. exact IH.
Qed.
Lemma hex_not_0x t l : lowercase t = lower_hex l -> forall u, t <> ("0x" ++ u)%string.
Proof.
  intros H u ->. destruct l as [|b l]; [done|]. change ("0x" ++ u)%string with (String "0" (String "x" u)) in H.
  cbn [lowercase lower_hex] in H. injection H as _ H _. change (lower "x") with "x"%char in H.
  symmetry in H. apply lower_digit_x in H; [done|]. apply N.mod_lt. lia.
Qed.
Definition hexish (c : ascii) : bool := match hex_val c with Some _ => negb (is_blank c) | None => true end.
Lemma hexish_all c : hexish c = true.
Proof. destruct c as [[] [] [] [] [] [] [] []]; reflexivity. Qed.
Lemma digit_not_space c d : d < 16 -> lower c = lower_digit d -> ~ blank (String c EmptyString).
Proof.
  intros Hd Hc Hb. assert (hex_val c = Some d) as Hv by (by apply hex_val_iff). pose proof (hexish_all c) as Hh. unfold hexish in Hh. rewrite Hv in Hh.
  apply Forall_inv in Hb. apply space_iff in Hb. by rewrite Hb in Hh.
Qed.
Definition solid (s : string) : Prop := Forall (fun c => is_blank c = false) (list_ascii_of_string s).
Lemma solid_tight s : solid s -> tight s.
Proof.
  intros H. assert (forall c, c ∈ list_ascii_of_string s -> ~ blank (String c EmptyString)) as G.
  { intros c Hc Hb. unfold solid in H. rewrite Forall_forall in H. specialize (H c Hc). apply Forall_inv in Hb. apply space_iff in Hb. by rewrite Hb in H. }
  split.
  - intros c t ->. apply G. cbn. by left.
  - intros t c ->. apply G. rewrite ascii_app. apply elem_of_app. right. by left.
Qed.
Lemma solid_app s t : solid s -> solid t -> solid (s ++ t).
Proof. unfold solid. rewrite ascii_app. intros. by apply Forall_app. Qed.
Lemma solid_ox k : solid (ox k).
Proof. induction k as [|k IH]; [constructor|]. cbn [ox]. apply solid_app; [|done]. by repeat constructor. Qed.
Lemma solid_hex l : forall t, Forall (fun b => b < 256) l -> lowercase t = lower_hex l -> solid t.
Proof.
  assert (forall c d, d < 16 -> lower c = lower_digit d -> is_blank c = false) as D.
  { intros c d Hd Hc. apply not_blank1. by apply (digit_not_space c d). }
  induction l as [|b l IH]; intros t Hf H.
  - destruct t; [constructor|done].
  - apply Forall_cons in Hf as [Hb Hf]. destruct t as [|x [|y t]]; [done|done|]. cbn [lowercase lower_hex] in H. injection H as H1 H2 H3.
    constructor; [|constructor; [|by apply IH]].
    + eapply D; [|exact H1]. apply N.div_lt_upper_bound; lia.
    + eapply D; [|exact H2]. apply N.mod_lt. lia.
Qed.
Lemma hex_file_pf a k t b l : blank a -> blank b -> Forall (fun b => b < 256) l ->
  lowercase t = hex_digits (2 * length l) (be l) EmptyString -> read_hex_file_bytes (a ++ (ox k ++ t) ++ b) = Some l.
Proof.
  intros Ha Hb Hf Ht. rewrite (digits_bytes (length l) l) in Ht by done. unfold read_hex_file_bytes. rewrite trim_pf; [|done|done|].
  - rewrite ox_trim by (by eapply hex_not_0x). apply decode_iff. done.
  - apply solid_tight, solid_app; [apply solid_ox|by eapply solid_hex].
Qed.
