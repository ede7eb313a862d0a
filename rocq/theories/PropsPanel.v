(** The page of the event monitor. *)
From Verif Require Import PanelSpec PanelProofs.
Local Open Scope N_scope.

(** ** C91 the page of the event monitor *)

(** In full: whatever events the panel has been given, it shows for each recent block or
    aggregate and each node that has it the time from the first arrival at any node to the
    first arrival at this one, in the colour of this delay, and nothing else; the order of
    the events does not matter.  Proved as long as no identifier is removed: for at most 400
    of them, and before the first clean-up. *)
Theorem C91_delay_partial nodes w l ms t i n d c : t <> TOther -> fits nodes t l ->
  (forall e e', e ∈ l -> e' ∈ l -> sighting nodes t i e -> sighting nodes t i e' -> pe_slot e = pe_slot e') ->
  mkDot i n d c ∈ drawn ms (panel_run nodes (panel0 w) (map OEvent l)) t <->
  exists f a e, least (seen_at nodes t i l) f /\ least (seen_by nodes t i l n) a /\ a = f + d /\
    (c = CFirst /\ d = 0 \/ c = CNormal /\ 0 < d <= ms \/ c = COver /\ 0 < d /\ ms < d) /\
    e ∈ l /\ sighting nodes t i e /\ forall x, x ∈ l -> counted nodes x -> pe_slot x < pe_slot e + w.
Proof. exact (delay_pf nodes w l ms t i n d c). Qed.
Print Assumptions C91_delay_partial.

(** After any events, clean-ups and changes of the window: the dots of one block or aggregate
    are measured from one real arrival, at which one of them is, and each is at a real arrival
    at its node. *)
Theorem C91_dots nodes w ops ms t i : t <> TOther -> let shown := drawn ms (panel_run nodes (panel0 w) ops) t in
  (exists n d c, mkDot i n d c ∈ shown) ->
  exists f, seen_at nodes t i (events_of ops) f /\ (exists n, mkDot i n 0 CFirst ∈ shown) /\
    forall n d c, mkDot i n d c ∈ shown -> seen_by nodes t i (events_of ops) n (f + d).
Proof. exact (dots_pf nodes w ops ms t i). Qed.
Print Assumptions C91_dots.
(** Never more than 400 blocks or aggregates are shown. *)
Theorem C91_bounded nodes w ops ms t K : t <> TOther -> NoDup K ->
  (forall i, i ∈ K -> exists n d c, mkDot i n d c ∈ drawn ms (panel_run nodes (panel0 w) ops) t) -> lenN K <= 400.
Proof. exact (bounded_pf nodes w ops ms t K). Qed.
Print Assumptions C91_bounded.

(** A block that has been cleaned up comes back when a node that is late reports it.  After
    the window has been widened this node is shown as the first to have it. *)
Definition xp_ops : list PanelOp :=
  [OEvent (mkPEv 1 TBlock 10 (Some 7) None 1000); OEvent (mkPEv 1 TBlock 40 (Some 8) None 121000); OPrune; OWindow 60;
   OEvent (mkPEv 2 TBlock 10 (Some 7) None 130000)].
Theorem C91_delay_refuted : exists nodes w ms ops i n1 n2 a1 a2,
  seen_by nodes TBlock i (events_of ops) n1 a1 /\ least (seen_by nodes TBlock i (events_of ops) n2) a2 /\ a1 + ms < a2 /\
  mkDot i n2 0 CFirst ∈ drawn ms (panel_run nodes (panel0 w) ops) TBlock.
Proof.
  exists [1; 2], 30, 4000, xp_ops, 7, 1, 2, 1000, 130000. split; [|split; [|split]].
  - exists (mkPEv 1 TBlock 10 (Some 7) None 1000). split; [by left|]. split; [|done]. split; [|done]. split; [done|]. split; [done|]. by left.
  - split.
    + exists (mkPEv 2 TBlock 10 (Some 7) None 130000). split; [right; right; left|]. split; [|done]. split; [|done]. split; [done|]. split; [done|]. right. by left.
    + intros x (e & He & (_ & _ & Hi) & Hn & <-). cbn in He. repeat (apply elem_of_cons in He as [->|He]; [try discriminate Hn; try discriminate Hi; vm_compute; discriminate|]). by apply elem_of_nil in He.
  - vm_compute. reflexivity.
  - assert (drawn 4000 (panel_run [1; 2] (panel0 30) xp_ops) TBlock = [mkDot 8 1 0 CFirst; mkDot 7 2 0 CFirst] \/
            drawn 4000 (panel_run [1; 2] (panel0 30) xp_ops) TBlock = [mkDot 7 2 0 CFirst; mkDot 8 1 0 CFirst]) as [-> | ->].
    { first [left; vm_compute; reflexivity|right; vm_compute; reflexivity]. }
    all: first [by left|right; by left].
Qed.
Print Assumptions C91_delay_refuted.

(** At its start the page takes in exactly the events of the history and of the stream.  None
    is taken in twice if those that come after the history are not in it. *)
Theorem C91_page_partial l1 h l2 :
  let taken := pg_taken (page_run page0 (map PLive l1 ++ [PHistory h] ++ map PLive l2)) in
  (forall e, e ∈ taken <-> e ∈ default [] h ++ l1 ++ l2) /\
  taken `sublist_of` (default [] h ++ l1 ++ l2) /\
  (NoDup l2 -> (forall e, e ∈ l2 -> e ∉ default [] h ++ l1) -> NoDup taken).
Proof. exact (page_pf l1 h l2). Qed.
Print Assumptions C91_page_partial.
(** The two answers come over different connections: an event of the history may come over
    the stream after it, and is then taken in twice. *)
Theorem C91_page_refuted : exists e h, e ∈ h /\ pg_taken (page_run page0 [PHistory (Some h); PLive e]) = [e; e].
Proof. exists (mkPEv 1 TBlock 10 (Some 7) None 1000), [mkPEv 1 TBlock 10 (Some 7) None 1000]. split; [by left|]. vm_compute. reflexivity. Qed.
Print Assumptions C91_page_refuted.

(** Non-vacuity: the reports of three nodes, out of order. *)
Definition xp_l : list PEv :=
  [mkPEv 2 TBlock 10 (Some 7) None 1500; mkPEv 1 TBlock 10 (Some 7) None 1000; mkPEv 9 TBlock 10 (Some 7) None 1; mkPEv 3 TBlock 10 (Some 7) None 9000;
   mkPEv 1 TBlock 10 (Some 7) None 1400].
Example C91_example : fits [1; 2; 3] TBlock xp_l /\ lenN (drawn 4000 (panel_run [1; 2; 3] (panel0 30) (map OEvent xp_l)) TBlock) = 3 /\
  mkDot 7 1 0 CFirst ∈ drawn 4000 (panel_run [1; 2; 3] (panel0 30) (map OEvent xp_l)) TBlock /\
  mkDot 7 2 500 CNormal ∈ drawn 4000 (panel_run [1; 2; 3] (panel0 30) (map OEvent xp_l)) TBlock /\
  mkDot 7 3 8000 COver ∈ drawn 4000 (panel_run [1; 2; 3] (panel0 30) (map OEvent xp_l)) TBlock.
Proof.
  split.
  { exists [7]. split; [vm_compute; discriminate|]. intros e i He (_ & _ & Hi). unfold xp_l in He.
    repeat (apply elem_of_cons in He as [->|He]; [injection Hi as <-; by left|]). by apply elem_of_nil in He. }
  split; [vm_compute; reflexivity|]. set (l := drawn _ _ _). vm_compute in l. subst l.
  split; [|split]; repeat first [left|right].
Qed.
Example C91_page_example :
  let e k := mkPEv 1 TBlock k (Some k) None k in
  pg_taken (page_run page0 (map PLive [e 3; e 4] ++ [PHistory (Some [e 1; e 2; e 3])] ++ map PLive [e 5])) = [e 1; e 2; e 3; e 4; e 5].
Proof. vm_compute. reflexivity. Qed.
