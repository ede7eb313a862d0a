(** Injective hash functions and block builders, for concrete examples only. *)
From Verif Require Export STFExamples.
From stdpp Require Import countable.

Definition i_header (h : Header) : N :=
  N.pos (encode [h_slot h; h_proposer h; h_parent h; h_state_root h; h_body_root h]).
Lemma i_header_inj h h' : i_header h = i_header h' -> h = h'.
Proof.
  unfold i_header. intros [= E]. apply (inj encode) in E. injection E as E1 E2 E3 E4 E5.
  destruct h, h'; cbn in *. by subst.
Qed.

Definition att_code (a : AggAtt) : list bool * list N :=
  let d := at_data a in
  (at_bits a, [ad_slot d; cp_root (ad_head d); cp_slot (ad_head d); cp_root (ad_target d);
               cp_slot (ad_target d); cp_root (ad_source d); cp_slot (ad_source d)]).
Lemma att_code_inj a a' : att_code a = att_code a' -> a = a'.
Proof.
  destruct a as [b [s [] [] []]], a' as [b' [s' [] [] []]]. unfold att_code. cbn.
  intros [= -> -> -> -> -> -> -> ->]. done.
Qed.
Definition i_body (l : list AggAtt) : N := N.pos (encode (map att_code l)).
Lemma i_body_inj l l' : i_body l = i_body l' -> l = l'.
Proof.
  unfold i_body. intros [= E]. apply (inj encode) in E. revert l' E.
  induction l as [|a l IH]; intros [|a' l'] E; cbn in E; try done.
  f_equal; [apply att_code_inj; congruence|apply IH; congruence].
Qed.
Definition i_state (s : State) : N :=
  1 + (s_slot s * 65537 + cp_slot (s_justified s) + 7 * lenN (s_jroots s)) mod 999983.

Notation i_stf := (state_transition i_state i_header i_body).
Definition i_block (s : State) (slot : N) (atts : list AggAtt) : Block :=
  match process_slots i_state s slot with
  | Ok s1 =>
      let b := mkBlock slot (slot mod lenN (s_validators s)) (i_header (s_header s1)) 0 atts in
      match process_block i_header i_body s1 b with
      | Ok s2 => mkBlock slot (b_proposer b) (b_parent b) (i_state s2) atts
      | _ => b
      end
  | _ => mkBlock 0 0 0 0 []
  end.
Definition i_genesis : State := genesis i_body 1000 (toy_vals 3).
