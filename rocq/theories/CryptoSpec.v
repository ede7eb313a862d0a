(** What is asked of the signature functions, and what is assumed of the library. *)
From Verif Require Export Crypto.
Local Open Scope N_scope.

(** The key [pk] signed the message [m] for the slot [slot]. *)
Definition signed (M : Multisig) (pk : PK M) (m : H256) (slot : N) : Prop := exists sg, xmss_valid M pk m slot sg = true.
Definition same_keys {A} (l k : list A) : Prop := forall x, x ∈ l <-> x ∈ k.

(** What is assumed of lean-multisig.  Soundness of its verifiers; a proof read back has the
    keys it is given; a proof read back with the keys it was made of is the same proof.  Keys
    are compared as sets: the library orders them itself. *)
Record sound_multisig (M : Multisig) : Prop := {
  sm_verify1 t : lm_verify1 M t = true -> forall pk, pk ∈ in_pks (t1_info M t) -> signed M pk (in_msg (t1_info M t)) (in_slot (t1_info M t));
  sm_verify2 t : lm_verify2 M t = true -> forall x pk, x ∈ t2_infos M t -> pk ∈ in_pks x -> signed M pk (in_msg x) (in_slot x);
  sm_keys1 b pks t : t1_decompress M b pks = Some t -> same_keys (in_pks (t1_info M t)) pks;
  sm_keys2 b pkss t : t2_decompress M b pkss = Some t ->
    forall i x pks, t2_infos M t !! i = Some x -> pkss !! i = Some pks -> same_keys (in_pks x) pks }.
Record faithful_multisig (M : Multisig) : Prop := {
  fm_codec1 t pks : same_keys (in_pks (t1_info M t)) pks ->
    exists t', t1_decompress M (t1_compress M t) pks = Some t' /\ lm_verify1 M t' = lm_verify1 M t /\
      in_msg (t1_info M t') = in_msg (t1_info M t) /\ in_slot (t1_info M t') = in_slot (t1_info M t);
  fm_codec2 t pkss : Forall2 (fun x pks => same_keys (in_pks x) pks) (t2_infos M t) pkss ->
    exists t', t2_decompress M (t2_compress M t) pkss = Some t' /\ lm_verify2 M t' = lm_verify2 M t /\
      Forall2 (fun x y => in_msg x = in_msg y /\ in_slot x = in_slot y) (t2_infos M t') (t2_infos M t);
  (** the provers return proofs that verify, of what they were asked ... *)
  fm_aggregate cs raw m slot t : lm_aggregate M cs raw m slot = Some t ->
    lm_verify1 M t = true /\ in_msg (t1_info M t) = m /\ in_slot (t1_info M t) = slot /\
    same_keys (in_pks (t1_info M t)) (concat (map (fun c => in_pks (t1_info M c)) cs) ++ map fst raw);
  fm_merge ts t : lm_merge M ts = Some t -> lm_verify2 M t = true /\
    Forall2 (fun x y => in_msg x = in_msg (t1_info M y) /\ in_slot x = in_slot (t1_info M y) /\ same_keys (in_pks x) (in_pks (t1_info M y)))
      (t2_infos M t) ts;
  fm_split t i c : lm_split M t i = Some c -> lm_verify1 M c = true /\
    exists x, t2_infos M t !! i = Some x /\ in_msg (t1_info M c) = in_msg x /\ in_slot (t1_info M c) = in_slot x /\
      same_keys (in_pks (t1_info M c)) (in_pks x);
  (** ... and do return one when their inputs are valid *)
  fm_can_aggregate cs raw m slot :
    Forall (fun c => lm_verify1 M c = true /\ in_msg (t1_info M c) = m /\ in_slot (t1_info M c) = slot) cs ->
    Forall (fun x => xmss_valid M x.1 m slot x.2 = true) raw -> (cs <> [] \/ raw <> []) ->
    is_Some (lm_aggregate M cs raw m slot);
  fm_can_merge ts : ts <> [] -> Forall (fun t => lm_verify1 M t = true) ts -> is_Some (lm_merge M ts);
  fm_can_split t i : lm_verify2 M t = true -> (i < length (t2_infos M t))%nat -> is_Some (lm_split M t i) }.
