(** Example values for the theorems on served blocks. *)
From Verif Require Export ServeThms NodeExamples.
Local Open Scope N_scope.

Definition slots_of (r : Response) : option (list N) :=
  match r with RBlocks l => Some (map (fun sb => b_slot (sb_block sb)) l) | RInvalid => None end.
Definition block_slot (r : res unit (HttpResp Block)) : option N :=
  match r with Ok (HOk b) => Some (b_slot b) | _ => None end.
Definition not_found {A} (r : res unit (HttpResp A)) : bool := match r with Ok HNotFound => true | _ => false end.
Definition invalid {A} (r : res unit (HttpResp A)) : bool := match r with Ok HInvalid => true | _ => false end.
Lemma not_found_spec {A} (r : res unit (HttpResp A)) : not_found r = true -> r = Ok HNotFound.
Proof. by destruct r as [[| |]| |]. Qed.

(** The head of [x_n1] is at slot 3 and is stored. *)
Lemma x_n1_head : has_slot (tab x_n1) (db_head (nd_db x_n1)) 3.
Proof.
  assert (match t_headers (tab x_n1) !! db_head (nd_db x_n1) with Some h => h_slot h =? 3 | None => false end = true) as H
    by (vm_compute; reflexivity).
  destruct (t_headers (tab x_n1) !! db_head (nd_db x_n1)) as [h|] eqn:Hh; [|done]. exists h. split; [done|]. by apply N.eqb_eq.
Qed.
Lemma x_n1_head_404 : http_get_block xe x_n1 (slot_id 3) = Ok HNotFound.
Proof. apply not_found_spec. vm_compute. reflexivity. Qed.
Lemma x_n1_head_block : exists b, get_block (e_body xe) (tab x_n1) (db_head (nd_db x_n1)) = Some b /\ b_slot b = 3.
Proof.
  assert (match get_block (e_body xe) (tab x_n1) (db_head (nd_db x_n1)) with Some b => b_slot b =? 3 | None => false end = true) as H
    by (vm_compute; reflexivity).
  destruct (get_block _ _ _) as [b|]; [|done]. exists b. split; [done|]. by apply N.eqb_eq.
Qed.
Lemma C67_refuted_pf : exists E gt vals n b,
  good_hash (e_header E) /\ lenN vals <= VALIDATOR_REGISTRY_LIMIT /\ reachable E gt vals n /\
  get_block (e_body E) (tab n) (db_head (nd_db n)) = Some b /\ b_slot b < two64 /\
  http_get_block E n (slot_id (b_slot b)) = Ok HNotFound.
Proof.
  destruct x_n1_head_block as (b & Hb & Hs). exists xe, 1000, x_vals, x_n1, b.
  split; [exact xe_good|]. split; [exact x_vals_few|]. split; [exact x_reach1|]. split; [done|]. rewrite Hs. split; [vm_compute; reflexivity|exact x_n1_head_404].
Qed.
