(** The page of the event monitor: how it takes in events at its start, and the panel that
    shows the delay of each node behind the first one.  Models
    tooling/event-monitor/web/app.js:94-96, 157-219 and
    tooling/event-monitor/web/propagation.js:11-12, 65-77, 110-137, 201-224, 241-257, 326-329.
    Simplified: names and identifiers are numbers; a frame comes parsed; positions on the
    canvas, colours of the theme, fading and the status chips are left out. *)
From Verif Require Export Lib.
Local Open Scope N_scope.

Inductive PTopic := TBlock | TAggregate | TOther.
Global Instance ptopic_eq_dec : EqDecision PTopic.
Proof. solve_decision. Defined.
(** The fields of an event that the page uses here *)
Record PEv := mkPEv { pe_node : N; pe_topic : PTopic; pe_slot : N; pe_id : option N; pe_val : option N; pe_arrival : N }.
(** app.js:94-96; simplified: a tuple, where the page joins the texts with bars *)
Definition pe_key (e : PEv) : N * PTopic * N * option N * option N * N :=
  (pe_node e, pe_topic e, pe_slot e, pe_id e, pe_val e, pe_arrival e).

(** *** Start of the page *)
Record Page := mkPage { pg_loading : bool; pg_buffer : list PEv; pg_taken : list PEv }.
(** app.js:157-160 *)
Definition page0 : Page := mkPage true [] [].
(** An event of the stream, or the end of the request for the history; [None]: it failed. *)
Inductive PageStep := PLive (e : PEv) | PHistory (h : option (list PEv)).
(** app.js:166-171, applied to each of a list; [seen]: the keys so far *)
Fixpoint ingest_deduped (seen : list (N * PTopic * N * option N * option N * N)) (l : list PEv) : list PEv :=
  match l with
  | [] => []
  | e :: l' => if decide (pe_key e ∈ seen) then ingest_deduped seen l' else e :: ingest_deduped (pe_key e :: seen) l'
  end.
(** app.js:173-185, 198-219: the history and then the buffer, with one set of keys *)
Definition page_step (p : Page) (a : PageStep) : Page :=
  match a with
  | PLive e =>
      if pg_loading p then mkPage true (pg_buffer p ++ [e]) (pg_taken p)
      else mkPage false (pg_buffer p) (pg_taken p ++ [e])
  | PHistory h =>
      if pg_loading p
      then mkPage false [] (pg_taken p ++ ingest_deduped [] (default [] h ++ pg_buffer p))
      else p
  end.
Definition page_run (p : Page) (l : list PageStep) : Page := foldl page_step p l.

(** *** The propagation panel *)
(** propagation.js:12 *)
Definition MAX_IDS_PER_TOPIC : N := 400.
(** propagation.js:65-68; [en_min]: [None] is infinity *)
Record Entry := mkEntry { en_slot : N; en_min : option N; en_arr : gmap N N }.
Record Group := mkGroup { gr_map : gmap N Entry; gr_order : list N }.
Record Panel := mkPanel { pa_block : Group; pa_agg : Group; pa_max : N; pa_window : N }.
(** propagation.js:65-77 *)
Definition panel0 (window : N) : Panel := mkPanel (mkGroup ∅ []) (mkGroup ∅ []) 0 window.
Definition group_of (p : Panel) (t : PTopic) : Group := match t with TAggregate => pa_agg p | _ => pa_block p end.
(** propagation.js:117-126 *)
Definition ensure (g : Group) (i slot : N) : Group :=
  match gr_map g !! i with
  | Some _ => g
  | None =>
      let m := <[i := mkEntry slot None ∅]> (gr_map g) in
      let order := (gr_order g ++ [i])%list in
      if MAX_IDS_PER_TOPIC <? lenN order
      then match order with d :: order' => mkGroup (delete d m) order' | [] => mkGroup m order end
      else mkGroup m order
  end.
(** propagation.js:130-135 *)
Definition record (n a : N) (e : Entry) : Entry :=
  mkEntry (en_slot e)
    (match en_min e with None => Some a | Some m => if a <? m then Some a else Some m end)
    (match en_arr e !! n with
     | None => <[n := a]> (en_arr e)
     | Some b => if a <? b then <[n := a]> (en_arr e) else en_arr e
     end).
(** propagation.js:115-135; an entry that the cap has removed is not in the map any more *)
Definition add_group (g : Group) (i slot n a : N) : Group :=
  let g' := ensure g i slot in mkGroup (alter (record n a) i (gr_map g')) (gr_order g').
(** propagation.js:110-137 *)
Definition add_event (nodes : list N) (p : Panel) (e : PEv) : Panel :=
  match pe_topic e, pe_id e with
  | TOther, _ | _, None => p
  | t, Some i =>
      if decide (pe_node e ∈ nodes) then
        let g := add_group (group_of p t) i (pe_slot e) (pe_node e) (pe_arrival e) in
        let max := if pa_max p <? pe_slot e then pe_slot e else pa_max p in
        match t with
        | TAggregate => mkPanel (pa_block p) g max (pa_window p)
        | _ => mkPanel g (pa_agg p) max (pa_window p)
        end
      else p
  end.
(** propagation.js:241-257 *)
Definition prune_group (max window : N) (g : Group) : Group :=
  let old (i : N) := match gr_map g !! i with Some e => window <=? max - en_slot e | None => true end in
  mkGroup (foldr (fun i m => match gr_map g !! i with Some _ => if old i then delete i m else m | None => m end) (gr_map g) (gr_order g))
    (List.filter (fun i => negb (old i)) (gr_order g)).
Definition panel_prune (p : Panel) : Panel :=
  mkPanel (prune_group (pa_max p) (pa_window p) (pa_block p)) (prune_group (pa_max p) (pa_window p) (pa_agg p)) (pa_max p) (pa_window p).
(** propagation.js:326-329 *)
Definition set_window (p : Panel) (n : N) : Panel := mkPanel (pa_block p) (pa_agg p) (pa_max p) (N.max 1 n).

(** propagation.js:214: first to see, behind, more than a slot behind *)
Inductive Colour := CFirst | CNormal | COver.
Definition colour (ms_per_slot delta : N) : Colour :=
  if delta =? 0 then CFirst else if ms_per_slot <? delta then COver else CNormal.
Record Dot := mkDot { dt_id : N; dt_node : N; dt_delta : N; dt_colour : Colour }.
(** propagation.js:201-222; no event has arrived before the first, so the difference is exact *)
Definition drawn (ms : N) (p : Panel) (t : PTopic) : list Dot :=
  List.concat (map (fun ie : N * Entry =>
    let '(i, e) := ie in
    if pa_window p <=? pa_max p - en_slot e then []
    else map (fun na : N * N => let d := snd na - default 0 (en_min e) in mkDot i (fst na) d (colour ms d)) (map_to_list (en_arr e)))
    (map_to_list (gr_map (group_of p t)))).

Inductive PanelOp := OEvent (e : PEv) | OPrune | OWindow (n : N).
Definition panel_op (nodes : list N) (p : Panel) (o : PanelOp) : Panel :=
  match o with OEvent e => add_event nodes p e | OPrune => panel_prune p | OWindow n => set_window p n end.
Definition panel_run (nodes : list N) (p : Panel) (l : list PanelOp) : Panel := foldl (panel_op nodes) p l.
