(** Concrete runs of the storage model with injective hashes. *)
From Verif Require Export StorageMore InjHash.

Definition sx_init : res unit Db := init_store i_state i_header empty_tables i_genesis None.
Definition sx_db : Db :=
  match sx_init with
  | Ok d => d
  | _ => mkDb 0 0 0 0 (mkCp 0 0) (mkCp 0 0) empty_tables
  end.
Definition is_ok {E A} (r : res E A) : bool := match r with Ok _ => true | _ => false end.
Lemma sx_init_ok : init_store i_state i_header empty_tables i_genesis None = Ok sx_db.
Proof.
  assert (is_ok sx_init = true) as H by (vm_compute; reflexivity).
  unfold sx_db. fold sx_init. by destruct sx_init.
Qed.

(** One import as the node does it: read the parent state, run the transition,
    write the block, write the state. *)
Definition import_step (x : Tables * Cache * gmap H256 State) (sb : SignedBlock)
  : option (Tables * Cache * gmap H256 State) :=
  let '(t, c, w) := x in
  let b := sb_block sb in
  let root := block_root i_header i_body b in
  if has_state t root then None
  else match get_state t c (b_parent b) with
       | Ok (Some parent, c1) =>
           match i_stf parent b with
           | Ok post =>
               match insert_state i_header (insert_signed_block i_body t root sb) c1 root (stored_state post b) with
               | Ok (t2, c2) => Some (t2, c2, <[root := stored_state post b]> w)
               | _ => None
               end
           | _ => None
           end
       | _ => None
       end.
Lemma import_step_run t c w sb t' c' w' :
  state_run i_state i_header i_body i_genesis t c w ->
  import_step (t, c, w) sb = Some (t', c', w') ->
  state_run i_state i_header i_body i_genesis t' c' w'.
Proof.
  intros Hr. unfold import_step. destruct (has_state _ _) eqn:H1; [done|].
  destruct (get_state _ _ _) as [[[p|] c1]| |] eqn:H2; try done.
  destruct (i_stf p (sb_block sb)) as [post| |] eqn:H3; try done.
  destruct (insert_state _ _ _ _ _) as [[t2 c2]| |] eqn:H4; try done.
  intros [= <- <- <-]. by eapply sr_import.
Qed.
Fixpoint import_all x (sbs : list SignedBlock) :=
  match sbs with
  | [] => Some x
  | sb :: rest => match import_step x sb with Some x' => import_all x' rest | None => None end
  end.
Lemma import_all_run sbs t c w t' c' w' :
  state_run i_state i_header i_body i_genesis t c w ->
  import_all (t, c, w) sbs = Some (t', c', w') ->
  state_run i_state i_header i_body i_genesis t' c' w'.
Proof.
  revert t c w. induction sbs as [|sb sbs IH]; intros t c w Hr; cbn [import_all].
  - by intros [= <- <- <-].
  - destruct (import_step _ _) as [[[t1 c1] w1]|] eqn:E; [|done]. apply IH. by eapply import_step_run.
Qed.

(** A fork: blocks at slots 1, 2 and 1030 (which crosses a snapshot boundary),
    1031 on top, and a sibling of slot 2 at slot 4. *)
Definition sx_g := stored_anchor i_state i_genesis.
Definition sx_next (s : State) (slot : N) : Block * State :=
  let b := i_block s slot [] in
  (b, match i_stf s b with Ok p => stored_state p b | _ => s end).
Definition sx_b1 := sx_next sx_g 1.
Definition sx_b2 := sx_next sx_b1.2 2.
Definition sx_b3 := sx_next sx_b2.2 1030.
Definition sx_b4 := sx_next sx_b3.2 1031.
Definition sx_c2 := sx_next sx_b1.2 4.
Definition sx_sbs : list SignedBlock :=
  map (fun x : Block * State => mkSB x.1 (b_slot x.1 + 70)) [sx_b1; sx_b2; sx_c2; sx_b3; sx_b4].
Definition sx_root (x : Block * State) : H256 := block_root i_header i_body x.1.

Definition sx_final : Tables * Cache * gmap H256 State :=
  default (empty_tables, [], ∅)
    (import_all (db_tab sx_db, [], {[ db_head sx_db := stored_anchor i_state i_genesis ]}) sx_sbs).
Lemma sx_run :
  state_run i_state i_header i_body i_genesis sx_final.1.1 sx_final.1.2 sx_final.2.
Proof.
  set (start := (db_tab sx_db, [], {[ db_head sx_db := stored_anchor i_state i_genesis ]})
                : Tables * Cache * gmap H256 State).
  assert ((if import_all start sx_sbs then true else false) = true) as H by (vm_compute; reflexivity).
  destruct (import_all start sx_sbs) as [x|] eqn:Hx; [|done]. clear H.
  unfold sx_final. fold start. rewrite Hx. destruct x as [[t c] w]. cbn.
  eapply import_all_run; [|exact Hx]. apply (sr_init _ _ _ _ None). exact sx_init_ok.
Qed.
Lemma sx_reads :
  sx_final.2 !! sx_root sx_b4 = Some sx_b4.2 /\
  t_states sx_final.1.1 !! sx_root sx_b4 = None /\
  is_Some (t_states sx_final.1.1 !! sx_root sx_b3) /\
  read_state sx_final.1.1 (sx_root sx_c2) = Ok (Some sx_c2.2) /\
  s_slot sx_b4.2 = 1031 /\ s_slot sx_c2.2 = 4.
Proof.
  split_and!; [vm_compute; reflexivity|vm_compute; reflexivity|
    apply (bool_decide_unpack _); vm_compute; exact I|vm_compute; reflexivity..].
Qed.

(** Head switches b4 -> c2 over those tables. *)
Definition sx_d0 : Db := with_tab sx_db sx_final.1.1.
(** Executable version of [path] with decreasing slots. *)
Fixpoint path_list (n : nat) (t : Tables) (A r : H256) : option (list H256) :=
  match t_headers t !! r with
  | None => None
  | Some h =>
      if r =? A then Some [A]
      else match n with
           | O => None
           | S n' => cons r <$> path_list n' t A (h_parent h)
           end
  end.
Lemma path_list_sound n t A r l : path_list n t A r = Some l -> path t A r l.
Proof.
  revert r l. induction n as [|n IH]; intros r l; cbn [path_list];
    destruct (t_headers t !! r) as [h|] eqn:Hh; try done;
    destruct (N.eqb_spec r A) as [->|Hne]; try done.
  - intros [= <-]. by econstructor.
  - intros [= <-]. by econstructor.
  - destruct (path_list n t A (h_parent h)) as [l'|] eqn:E; [|done]. intros [= <-].
    eapply path_step; eauto.
Qed.
Fixpoint desc_list (l : list N) : bool :=
  match l with
  | a :: ((b :: _) as l') => (b <? a) && desc_list l'
  | _ => true
  end.
Lemma desc_list_sound t l : desc_list (map (slot_of t) l) = true -> descending t l.
Proof.
  induction l as [|a l IH]; intros Hd i r r' h h' Hr Hr' Hh Hh'; [done|].
  destruct l as [|b l]; [destruct i; done|].
  cbn [map desc_list] in Hd. apply andb_true_iff in Hd as [Hlt Hd].
  destruct i as [|i]; cbn in Hr, Hr'.
  - simplify_eq. unfold slot_of in Hlt. rewrite Hh, Hh' in Hlt. lia.
  - exact (IH Hd i r r' h h' Hr Hr' Hh Hh').
Qed.

Definition sx_head (d : Db) (r : H256) : Db :=
  match apply_checkpoints d r None None with Ok d' => d' | _ => d end.
Definition sx_d1 : Db := sx_head sx_d0 (sx_root sx_b4).
Definition sx_d2 : Db := sx_head sx_d1 (sx_root sx_c2).
Lemma sx_head_ok d r :
  match apply_checkpoints d r None None with Ok _ => true | _ => false end = true ->
  apply_checkpoints d r None None = Ok (sx_head d r).
Proof. unfold sx_head. by destruct (apply_checkpoints d r None None). Qed.
Lemma index_single t A :
  path t A A [A] -> map_to_list (t_roots t) = [(slot_of t A, A)] -> index_exact t A A.
Proof.
  intros Hp Hm s r. rewrite <- elem_of_map_to_list, Hm, elem_of_list_singleton. split.
  - intros [= -> ->]. destruct (path_stored _ _ _ _ A Hp) as [h Hh]; [left|].
    exists [A], h. split_and!; try done; [by left|]. by rewrite <- (slot_of_header _ _ _ Hh).
  - intros (l & h & Hp' & Hin & Hh & <-). rewrite (path_det _ _ _ _ _ Hp' Hp) in Hin.
    apply elem_of_list_singleton in Hin as ->. by rewrite <- (slot_of_header _ _ _ Hh).
Qed.
Lemma sx_path0 : path (db_tab sx_d0) (db_head sx_db) (db_head sx_db) [db_head sx_db].
Proof. apply (path_list_sound 9). vm_compute. reflexivity. Qed.
Lemma sx_index0 : index_exact (db_tab sx_d0) (db_head sx_db) (db_head sx_db).
Proof. apply (index_single _ _ sx_path0). vm_compute. reflexivity. Qed.
Lemma sx_heads : head_run (db_head sx_db) sx_d0 sx_d2.
Proof.
  eapply (hr_head _ _ sx_d1 _ (sx_root sx_c2) (default [] (path_list 9 (db_tab sx_d1) (db_head sx_db) (sx_root sx_c2)))).
  - eapply (hr_head _ _ sx_d0 _ (sx_root sx_b4) (default [] (path_list 9 (db_tab sx_d0) (db_head sx_db) (sx_root sx_b4)))).
    + constructor.
    + apply (path_list_sound 9). vm_compute. reflexivity.
    + apply desc_list_sound. vm_compute. reflexivity.
    + apply (sx_head_ok sx_d0 (sx_root sx_b4)). vm_compute. reflexivity.
  - apply (path_list_sound 9). vm_compute. reflexivity.
  - apply desc_list_sound. vm_compute. reflexivity.
  - apply (sx_head_ok sx_d1 (sx_root sx_c2)). vm_compute. reflexivity.
Qed.
