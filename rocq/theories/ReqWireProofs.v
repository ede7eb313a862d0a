From Coq Require Import String.
From Verif Require Import ReqWireSpec WireMore.
Local Open Scope N_scope.

Lemma le_length n : forall x, length (le_bytes n x) = n.
Proof. induction n as [|n IH]; intros x; [done|]. cbn. by rewrite IH. Qed.
Lemma le_ok n : forall x, bytes_ok (le_bytes n x).
Proof. induction n as [|n IH]; intros x; [constructor|]. constructor; [apply N.mod_lt; lia|apply IH]. Qed.
Lemma pow256 n : 256 ^ N.of_nat (S n) = 256 * 256 ^ N.of_nat n.
Proof. rewrite Nat2N.inj_succ. apply N.pow_succ_r'. Qed.
Lemma of_le_le n : forall x, x < 256 ^ N.of_nat n -> of_le (le_bytes n x) = x.
Proof.
  induction n as [|n IH]; intros x Hx; [cbn in *; lia|]. rewrite pow256 in Hx. cbn [le_bytes of_le]. rewrite IH.
  - pose proof (N.div_mod' x 256). lia.
  - apply N.div_lt_upper_bound; lia.
Qed.
Lemma of_le_bound l : bytes_ok l -> of_le l < 256 ^ N.of_nat (length l).
Proof.
  induction l as [|b l IH]; intros H; [cbn; lia|]. apply Forall_cons in H as [Hb H]. apply IH in H. cbn [length of_le]. rewrite pow256. lia.
Qed.
Lemma le_of_le l : bytes_ok l -> le_bytes (length l) (of_le l) = l.
Proof.
  induction l as [|b l IH]; intros H; [done|]. apply Forall_cons in H as [Hb H]. cbn [length of_le le_bytes].
  assert ((b + 256 * of_le l) mod 256 = b) as ->. { rewrite N.mul_comm, N.mod_add by lia. by apply N.mod_small. }
  assert ((b + 256 * of_le l) / 256 = of_le l) as ->. { rewrite N.mul_comm, N.div_add by lia. rewrite N.div_small by done. lia. }
  by rewrite IH.
Qed.
Lemma p8 : 256 ^ N.of_nat 8 = 2 ^ 64. Proof. reflexivity. Qed.
Lemma le8 l : bytes_ok l -> length l = 8%nat -> of_le l < 2 ^ 64 /\ le_bytes 8 (of_le l) = l.
Proof. intros Hl H. pose proof (of_le_bound l Hl) as A. pose proof (le_of_le l Hl) as E. rewrite H in A, E. by rewrite p8 in A. Qed.
Lemma le4 l : bytes_ok l -> length l = 4%nat -> le_bytes 4 (of_le l) = l.
Proof. intros Hl H. pose proof (le_of_le l Hl) as E. by rewrite H in E. Qed.
Lemma take_ok n l : bytes_ok l -> bytes_ok (take n l). Proof. apply Forall_take. Qed.
Lemma drop_ok n l : bytes_ok l -> bytes_ok (drop n l). Proof. apply Forall_drop. Qed.

(** Checkpoints and status *)
Lemma checkpoint_length c : length (wc_root c) = 32%nat -> length (ssz_checkpoint c) = 40%nat.
Proof. intros H. unfold ssz_checkpoint. rewrite app_length, le_length, H. done. Qed.
Lemma get_put_checkpoint c : a_checkpoint c -> get_checkpoint (ssz_checkpoint c) = c.
Proof.
  destruct c as [r n]. intros [[Hr _] Hn]. cbn in Hr, Hn. unfold get_checkpoint, ssz_checkpoint. cbn [wc_root wc_slot].
  rewrite take_app_alt, drop_app_alt by done. rewrite of_le_le; [done|]. by rewrite p8.
Qed.
Lemma get_status_put s : a_status s -> get_status (ssz_status s) = Some s.
Proof.
  destruct s as [f h]. intros [Hf Hh]. cbn in Hf, Hh. unfold get_status, ssz_status. cbn [ws_finalized ws_head].
  pose proof (checkpoint_length f (proj1 (proj1 Hf))) as Lf. pose proof (checkpoint_length h (proj1 (proj1 Hh))) as Lh.
  unfold lenN. rewrite app_length, Lf, Lh. change (N.of_nat (40 + 40) =? 80) with true. cbn [negb].
  rewrite take_app_alt, drop_app_alt by done. by rewrite !get_put_checkpoint.
Qed.
Lemma checkpoint_spelling l : bytes_ok l -> length l = 40%nat -> a_checkpoint (get_checkpoint l) /\ ssz_checkpoint (get_checkpoint l) = l.
Proof.
  intros Hl H. unfold get_checkpoint, a_checkpoint, a_root, ssz_checkpoint. cbn [wc_root wc_slot].
  assert (length (drop 32 l) = 8%nat) as Hd by (rewrite drop_length; lia). pose proof (drop_ok 32 l Hl) as Hdo. split.
  - split; [split; [rewrite take_length; lia|by apply take_ok]|]. by apply le8.
  - rewrite (proj2 (le8 _ Hdo Hd)). apply take_drop.
Qed.
Lemma status_spelling l s : bytes_ok l -> get_status l = Some s -> a_status s /\ l = ssz_status s.
Proof.
  unfold get_status. intros Hl H. destruct (N.eqb_spec (lenN l) 80) as [Hn|]; [|done]. injection H as <-. unfold lenN in Hn.
  destruct (checkpoint_spelling (take 40 l)) as [A1 A2]; [by apply take_ok|rewrite take_length; lia|].
  destruct (checkpoint_spelling (drop 40 l)) as [B1 B2]; [by apply drop_ok|rewrite drop_length; lia|].
  split; [split; done|]. unfold ssz_status. cbn [ws_finalized ws_head]. by rewrite A2, B2, take_drop.
Qed.
(** Lists of roots *)
Lemma groups_concat roots : Forall (fun r => length r = 32%nat) roots -> groups (length roots) (concat roots) = roots.
Proof.
  induction roots as [|r roots IH]; intros H; [done|]. apply Forall_cons in H as [Hr H]. cbn [length concat groups].
  rewrite take_app_alt, drop_app_alt by done. by rewrite IH.
Qed.
Lemma concat_length roots : Forall (fun r : bytes => length r = 32%nat) roots -> length (concat roots) = (32 * length roots)%nat.
Proof. induction roots as [|r roots IH]; intros H; [done|]. apply Forall_cons in H as [Hr H]. cbn [concat]. rewrite app_length, IH by done. cbn [length]. lia. Qed.
Lemma roots_len roots : Forall a_root roots -> Forall (fun r : bytes => length r = 32%nat) roots.
Proof. intros H. eapply Forall_impl; [exact H|]. intros r [Hr _]. done. Qed.
Lemma get_roots_put roots : (length roots <= 1024)%nat -> Forall a_root roots -> get_roots (le_bytes 4 4 ++ concat roots) = Some roots.
Proof.
  intros Hn H. apply roots_len in H. unfold get_roots. rewrite drop_app_alt, take_app_alt by (by rewrite le_length).
  unfold lenN. rewrite app_length, le_length, concat_length by done.
  destruct (N.ltb_spec (N.of_nat (4 + 32 * length roots)) 4); [lia|]. change (of_le (le_bytes 4 4) =? 4) with true. cbn [negb].
  replace (N.of_nat (32 * length roots)) with (N.of_nat (length roots) * 32) by lia. rewrite N.mod_mul, N.div_mul by lia. cbn [N.eqb negb].
  destruct (N.ltb_spec 1024 (N.of_nat (length roots))); [lia|]. by rewrite Nat2N.id, groups_concat.
Qed.
Lemma groups_spelling k : forall l, bytes_ok l -> length l = (32 * k)%nat -> Forall a_root (groups k l) /\ concat (groups k l) = l /\ length (groups k l) = k.
Proof.
  induction k as [|k IH]; intros l Hl H; [destruct l; [split; [constructor|done]|cbn in H; lia]|]. cbn [groups concat length].
  destruct (IH (drop 32 l)) as (A & B & C); [by apply drop_ok|rewrite drop_length; lia|]. rewrite B, C, take_drop. split; [|done].
  constructor; [|done]. split; [rewrite take_length; lia|by apply take_ok].
Qed.
Lemma roots_spelling l roots : bytes_ok l -> get_roots l = Some roots -> (length roots <= 1024)%nat /\ Forall a_root roots /\ l = le_bytes 4 4 ++ concat roots.
Proof.
  unfold get_roots. intros Hl H. destruct (N.ltb_spec (lenN l) 4) as [|H4]; [done|]. unfold lenN in H4.
  destruct (N.eqb_spec (of_le (take 4 l)) 4) as [Ho|]; [|done]. cbn [negb] in H.
  destruct (N.eqb_spec (lenN (drop 4 l) mod 32) 0) as [Hm|]; [|done]. cbn [negb] in H.
  destruct (N.ltb_spec 1024 (lenN (drop 4 l) / 32)) as [|Hk]; [done|]. injection H as <-.
  pose proof (N.div_mod' (lenN (drop 4 l)) 32) as Hd. rewrite Hm in Hd.
  destruct (groups_spelling (N.to_nat (lenN (drop 4 l) / 32)) (drop 4 l)) as (A & B & C); [by apply drop_ok|unfold lenN in *; lia|].
  rewrite B, C. split; [lia|]. split; [done|]. assert (length (take 4 l) = 4%nat) as Ht by (rewrite take_length; lia).
  rewrite <- (take_drop 4 l) at 1. f_equal. rewrite <- Ho at 1. symmetry. apply le4; [by apply take_ok|done].
Qed.
Lemma range_spelling l a n : bytes_ok l -> get_range l = Some (a, n) -> a < 2 ^ 64 /\ n < 2 ^ 64 /\ l = le_bytes 8 a ++ le_bytes 8 n.
Proof.
  unfold get_range. intros Hl H. destruct (N.eqb_spec (lenN l) 16) as [Hn|]; [|done]. injection H as <- <-. unfold lenN in Hn.
  assert (length (take 8 l) = 8%nat) as Ht by (rewrite take_length; lia). assert (length (drop 8 l) = 8%nat) as Hd by (rewrite drop_length; lia).
  pose proof (take_ok 8 l Hl) as Hto. pose proof (drop_ok 8 l Hl) as Hdo.
  destruct (le8 _ Hto Ht) as [A1 A2]. destruct (le8 _ Hdo Hd) as [B1 B2]. split; [done|]. split; [done|]. by rewrite A2, B2, take_drop.
Qed.
Lemma get_range_put a n : a < 2 ^ 64 -> n < 2 ^ 64 -> get_range (le_bytes 8 a ++ le_bytes 8 n) = Some (a, n).
Proof.
  intros Ha Hn. unfold get_range, lenN. rewrite app_length, !le_length. change (N.of_nat (8 + 8) =? 16) with true.
  rewrite take_app_alt, drop_app_alt by (by rewrite le_length). by rewrite !of_le_le by (by rewrite p8).
Qed.
Lemma get_request_put r : a_request r -> get_request (protocol_of r) (ssz_request r) = Some r.
Proof.
  destruct r as [s|roots|a n]; intros H; unfold get_request; cbn [protocol_of ssz_request].
  - rewrite decide_True by done. by rewrite get_status_put.
  - rewrite decide_False, decide_True by done. destruct H. by rewrite get_roots_put.
  - rewrite !decide_False, decide_True by done. destruct H. by rewrite get_range_put.
Qed.
Lemma request_spelling p l r : bytes_ok l -> get_request p l = Some r -> p = protocol_of r /\ a_request r /\ l = ssz_request r.
Proof.
  unfold get_request. intros Hl H. destruct (decide _) as [->|_]; [|destruct (decide _) as [->|_]; [|destruct (decide _) as [->|_]; [|done]]].
  - destruct (get_status l) as [s|] eqn:E; [|done]. injection H as <-. apply status_spelling in E as [? ?]; done.
  - destruct (get_roots l) as [s|] eqn:E; [|done]. injection H as <-. apply roots_spelling in E as (? & ? & ?); done.
  - destruct (get_range l) as [[a n]|] eqn:E; [|done]. injection H as <-. apply range_spelling in E as (? & ? & ?); done.
Qed.
Lemma request_length r : a_request r -> lenN (ssz_request r) <= 32772.
Proof.
  unfold lenN. destruct r as [s|roots|a n]; cbn [ssz_request].
  - intros [[[H1 _] _] [[H2 _] _]]. unfold ssz_status. rewrite app_length, !checkpoint_length by done. lia.
  - intros [H1 H2]. rewrite app_length, le_length, concat_length by (by apply roots_len). lia.
  - intros _. rewrite app_length, !le_length. lia.
Qed.
Lemma small_written rc crc p : lenN p <= 32772 -> exists w n, write_payload rc crc p = Ok (w, n).
Proof. intros H. unfold write_payload. destruct (N.ltb_spec (MAX_PAYLOAD_SIZE - 1024) (lenN p)) as [Hx|]; [|eauto]. change (MAX_PAYLOAD_SIZE - 1024) with 10484736 in Hx. lia. Qed.

(** What is read from bytes is bytes. *)
Lemma varint_rest k : forall buf s v s1, bytes_ok s -> read_varint_loop k buf s = Ok (v, s1) -> bytes_ok s1.
Proof.
  induction k as [|k IH]; intros buf s v s1 Hs H; [done|]. cbn in H. destruct s as [|b s]; [done|]. apply Forall_cons in Hs as [_ Hs].
  destruct (_ =? 0); [|by eapply IH]. destruct (decode_varint _) as [[x y]| |]; cbn in H; [|done|done]. by injection H as _ <-.
Qed.
Lemma exact_ok n s a r : bytes_ok s -> read_exact n s = Ok (a, r) -> bytes_ok a /\ bytes_ok r.
Proof. unfold read_exact. intros Hs. destruct (_ <=? _); [|done]. intros [= <- <-]. split; [by apply take_ok|by apply drop_ok]. Qed.
Lemma chunks_ok rl fuel : forall e fr u s fr' s', bytes_ok fr -> bytes_ok s -> read_chunks rl fuel e fr u s = Ok (fr', s') -> bytes_ok fr'.
Proof.
  induction fuel as [|fuel IH]; intros e fr u s fr' s' Hf Hs H; cbn [read_chunks] in H; (destruct (u <? e); [|by injection H as <- _]); [done|].
  destruct (read_exact 4 s) as [[hd s1]| |] eqn:E1; cbn [rbind] in H; [|done|done]. destruct (exact_ok _ _ _ _ Hs E1) as [Hh Hs1].
  destruct hd as [|ty [|a [|b [|c [|]]]]]; try done. destruct (_ <? _); [done|].
  destruct (read_exact _ s1) as [[d s2]| |] eqn:E2; cbn [rbind] in H; [|done|done]. destruct (exact_ok _ _ _ _ Hs1 E2) as [Hd Hs2].
  destruct (chunk_uncompressed_len _ _ _); cbn [rbind] in H; [|done|done]. destruct (_ <? _); [done|].
  eapply IH; [|exact Hs2|exact H]. apply Forall_app. split; [done|]. by apply Forall_app.
Qed.
Lemma frame_ok rd crc fuel : (forall z u, bytes_ok z -> rd z = Some u -> bytes_ok u) -> forall n out fr u, bytes_ok out -> bytes_ok fr -> frame_chunks rd crc fuel n out fr = Some u -> bytes_ok u.
Proof.
  intros Hrd. induction fuel as [|fuel IH]; intros n out fr u Ho Hf H; cbn [frame_chunks] in H; (destruct (_ <=? _); [injection H as <-; by apply take_ok|]); [done|].
  destruct fr as [|ty [|a [|b [|c rest]]]]; try done. do 4 apply Forall_cons in Hf as [_ Hf]. cbn zeta in H. destruct (_ <? _); [done|].
  assert (forall k, bytes_ok (take k rest)) as Ht by (intros k; by apply take_ok). assert (forall k, bytes_ok (drop k rest)) as Hd by (intros k; by apply drop_ok).
  destruct (ty =? 0); [|destruct (ty =? 1); [|destruct (ty =? 255); [|destruct (_ <=? _); [|done]]]].
  - destruct (_ <? _); [done|]. destruct (rd _) as [x|] eqn:E; [|done]. destruct (bool_decide _); [|done]. eapply IH; [|apply Hd|exact H]. apply Forall_app. split; [done|eapply Hrd; [|exact E]; apply drop_ok, Ht].
  - destruct (_ <? _); [done|]. destruct (bool_decide _); [|done]. eapply IH; [|apply Hd|exact H]. apply Forall_app. split; [done|by apply drop_ok].
  - destruct (bool_decide _); [|done]. by eapply IH; [|apply Hd|exact H].
  - by eapply IH; [|apply Hd|exact H].
Qed.
Lemma payload_ok rd rl crc s u n s' : (forall z u, bytes_ok z -> rd z = Some u -> bytes_ok u) -> bytes_ok s -> decode_payload rd rl crc s = Ok (u, n, s') -> bytes_ok u.
Proof.
  intros Hrd Hs H. unfold decode_payload in H. destruct (read_varint s) as [[v s1]| |] eqn:E; cbn [rbind] in H; [|done|done].
  apply varint_rest in E; [|done]. destruct (_ <? _); [done|]. destruct (_ =? 0); [injection H as <- _ _; constructor|].
  unfold read_snappy_frame in H. destruct (read_chunks _ _ _ _ _ _) as [[fr s2]| |] eqn:E2; cbn [rbind] in H; [|done|done].
  apply chunks_ok in E2; [|constructor|done]. destruct (frame_decode _ _ _ _) as [x|] eqn:E3; [|done]. injection H as <- _ _.
  unfold frame_decode in E3. destruct (bool_decide _); [|done]. by eapply frame_ok; [exact Hrd|constructor|exact E2|exact E3].
Qed.

Section S.
  Context (rc : bytes -> bytes) (rd : bytes -> option bytes) (rl : bytes -> option N) (crc : bytes -> bytes).
  Context {B : Type} (to_ssz : B -> bytes) (from_ssz : bytes -> option B).
  Lemma request_pf r rest : snappy_ok rc rd rl crc -> a_request r ->
    exists w, write_request rc crc r = Ok w /\ read_request rd rl crc (protocol_of r) (w ++ rest) = Ok (r, rest).
  Proof.
    intros Hs Hr. destruct (small_written rc crc (ssz_request r) (request_length r Hr)) as (w & n & Hw). exists w.
    unfold write_request, read_request. rewrite Hw. split; [done|]. rewrite (C46_roundtrip_pf _ _ _ _ _ _ _ rest Hs Hw). cbn [rbind]. by rewrite get_request_put.
  Qed.
  Lemma accepted_pf p s r rest : (forall z u, bytes_ok z -> rd z = Some u -> bytes_ok u) -> bytes_ok s -> read_request rd rl crc p s = Ok (r, rest) ->
    p = protocol_of r /\ a_request r /\ exists n, decode_payload rd rl crc s = Ok (ssz_request r, n, rest).
  Proof.
    intros Hrd Hs H. unfold read_request in H. destruct (decode_payload rd rl crc s) as [[[u n] s']| |] eqn:E; cbn [rbind] in H; [|done|done].
    destruct (get_request p u) as [x|] eqn:G; [|done]. injection H as -> ->. pose proof (payload_ok _ _ _ _ _ _ _ Hrd Hs E) as Hu.
    apply request_spelling in G as (-> & ? & ->); [|done]. eauto.
  Qed.
  Lemma status_response_pf s rest : snappy_ok rc rd rl crc -> a_status s ->
    exists w, write_response rc crc to_ssz (WOfStatus s) = Ok w /\ read_response rd rl crc from_ssz "/leanconsensus/req/status/1/ssz_snappy" (w ++ rest) = Ok (WOfStatus s).
  Proof.
    intros Hs Ha. destruct (small_written rc crc (ssz_status s) (request_length (RStatus s) Ha)) as (w & n & Hw). exists (0 :: w).
    unfold write_response. rewrite Hw. split; [done|]. unfold read_response. rewrite decide_True by done. cbn [app decode_status_response].
    rewrite (C46_roundtrip_pf _ _ _ _ _ _ _ rest Hs Hw). cbn. by rewrite get_status_put.
  Qed.
  Lemma error_response_pf code m rest : snappy_ok rc rd rl crc -> a_message m -> code <> 0 ->
    exists w, write_response rc crc to_ssz (WOfError code m) = Ok w /\ read_response rd rl crc from_ssz "/leanconsensus/req/status/1/ssz_snappy" (w ++ rest) = Ok (WOfError code m).
  Proof.
    intros Hs Ha Hc. unfold a_message in Ha. destruct (small_written rc crc m) as (w & n & Hw); [unfold lenN; lia|]. exists (code :: w).
    unfold write_response. rewrite Hw. split; [done|]. unfold read_response. rewrite decide_True by done. cbn [app decode_status_response].
    rewrite (C46_roundtrip_pf _ _ _ _ _ _ _ rest Hs Hw). cbn [rbind fst]. destruct (N.eqb_spec code 0); [done|]. cbn [negb]. unfold get_message.
    destruct (N.ltb_spec 256 (lenN m)) as [Hx|]; [unfold lenN in Hx; lia|done].
  Qed.
  Lemma blocks_protocol p s : for_blocks p -> read_response rd rl crc from_ssz p s = (let! bs := decode_blocks_response rd rl crc from_ssz s in Ok (WOfBlocks bs)).
  Proof. intros Hp. unfold read_response. rewrite decide_False, decide_True; [done|done|by destruct Hp as [-> | ->]]. Qed.
  Lemma blocks_response_pf p bs : snappy_ok rc rd rl crc -> (forall b, from_ssz (to_ssz b) = Some b) -> for_blocks p ->
    exists w, write_response rc crc to_ssz (WOfBlocks bs) = Ok w /\
    read_response rd rl crc from_ssz p w = Ok (WOfBlocks (List.filter (fun b => lenN (to_ssz b) <=? 10 * 1024 * 1024 - 1024) bs)).
  Proof.
    intros Hs Hz Hp. destruct (C57_blocks_roundtrip_pf rc rd rl crc B to_ssz from_ssz bs Hs Hz) as (w & Hw & Hr). exists w. split; [done|]. by rewrite blocks_protocol, Hr.
  Qed.
  Lemma refusal_pf p code m : snappy_ok rc rd rl crc -> a_message m -> code <> 0 -> for_blocks p ->
    exists w, write_response rc crc to_ssz (WOfError code m) = Ok w /\ read_response rd rl crc from_ssz p w = Ok (WOfBlocks []).
  Proof.
    intros Hs Ha Hc Hp. unfold a_message in Ha. destruct (small_written rc crc m) as (w & n & Hw); [unfold lenN; lia|]. exists (code :: w).
    unfold write_response. rewrite Hw. split; [done|]. rewrite blocks_protocol by done. unfold decode_blocks_response. cbn [length read_blocks].
    pose proof (C46_roundtrip_pf _ _ _ _ _ _ _ [] Hs Hw) as E. rewrite app_nil_r in E. rewrite E. cbn [rbind]. destruct (N.eqb_spec code 0); [done|]. cbn [negb].
    by destruct (length w).
  Qed.
  Lemma request_total_pf p s : read_request rd rl crc p s <> Panic /\ read_request rd rl crc p s <> Err OutOfFuel.
  Proof.
    destruct (C46_total_pf rd rl crc s) as [H1 H2]. unfold read_request. destruct (decode_payload rd rl crc s) as [[[u n] s']|e|]; cbn [rbind]; [|split; congruence|done].
    by destruct (get_request p u).
  Qed.
  Lemma status_accepted_pf s r : (forall z u, bytes_ok z -> rd z = Some u -> bytes_ok u) -> bytes_ok s ->
    read_response rd rl crc from_ssz "/leanconsensus/req/status/1/ssz_snappy" s = Ok r ->
    match r with WOfStatus st => a_status st | WOfError code m => 0 < code < 256 /\ a_message m | WOfBlocks _ => False end.
  Proof.
    intros Hrd Hs H. unfold read_response in H. rewrite decide_True in H by done. destruct s as [|code s]; [done|]. apply Forall_cons in Hs as [Hc Hs]. cbn [decode_status_response] in H.
    destruct (decode_payload rd rl crc s) as [[[u n] s']| |] eqn:E; cbn [rbind fst] in H; [|done|done]. pose proof (payload_ok _ _ _ _ _ _ _ Hrd Hs E) as Hu.
    destruct (N.eqb_spec code 0) as [->|Hn]; cbn [negb] in H.
    - destruct (get_status u) as [st|] eqn:G; [|done]. injection H as <-. by apply status_spelling in G as [? _].
    - unfold get_message in H. destruct (N.ltb_spec 256 (lenN u)) as [|Hl]; [done|]. injection H as <-. split; [lia|]. unfold a_message, lenN in *. lia.
  Qed.
End S.
Lemma message_pf m : (exists m', error_message false m = Ok m' /\ a_message m' /\ m' `prefix_of` m) /\ (a_message m -> forall debug, error_message debug m = Ok m) /\
  (~ a_message m -> error_message true m = Panic).
Proof.
  unfold error_message, a_message. destruct (N.ltb_spec 256 (lenN m)) as [H|H]; unfold lenN in H.
  - split; [|split; [intros; lia|done]]. exists (take 256 m). split; [done|]. split; [rewrite take_length; lia|]. exists (drop 256 m). by rewrite take_drop.
  - split; [|split; [intros _ []; done|intros; lia]]. exists m. split; [done|]. split; [lia|done].
Qed.
