(** Connections to peers and bootnodes. *)
From Verif Require Import PeersProofs.
Local Open Scope N_scope.

(** ** C75: a bootnode is never given up.  Whatever connections come and go, when the two
    queues between the actor and the swarm are empty every bootnode is connected, being
    dialled, or will be dialled within 12 seconds. *)
Theorem C75_bootnodes local boots ops n out p :
  peers_run (peers_start local boots) ops = Some (n, out) ->
  pn_events n = [] -> pn_cmds n = [] -> p ∈ boots -> p <> local ->
  p ∈ pn_connected n \/ p ∈ pn_dials n \/ exists due, (p, due) ∈ pn_timers n /\ due <= pn_now n + 12000.
Proof. exact (bootnodes_pf local boots ops n out p). Qed.
Print Assumptions C75_bootnodes.

(** At any time: a connection, a dial, a command to dial, a timer, or the report of a lost
    connection or a failed dial that has not been handled yet. *)
Theorem C75_any_time local boots ops n out p :
  peers_run (peers_start local boots) ops = Some (n, out) -> p ∈ boots -> p <> local ->
  0 < conns_of n p \/ p ∈ pn_dials n \/ p ∈ pn_cmds n \/ (exists due, (p, due) ∈ pn_timers n) \/
  CClosed p 0 ∈ pn_events n \/ CError (Some p) ∈ pn_events n.
Proof. exact (awaited_pf local boots ops n out p). Qed.
Print Assumptions C75_any_time.

(** The peers counted as connected are those with a connection, however many each has. *)
Theorem C75_connected local boots ops n out p :
  peers_run (peers_start local boots) ops = Some (n, out) -> pn_events n = [] ->
  (p ∈ pn_connected n <-> 0 < conns_of n p).
Proof. exact (connected_pf local boots ops n out p). Qed.
Print Assumptions C75_connected.

(** Each of them has been sent a status request. *)
Theorem C75_status local boots ops n out p :
  peers_run (peers_start local boots) ops = Some (n, out) -> p ∈ pn_connected n -> exists t, PStatus t p ∈ out.
Proof. exact (status_pf local boots ops n out p). Qed.
Print Assumptions C75_status.

(** After the start only other bootnodes are dialled, and only 12 seconds or more after
    they were found gone. *)
Theorem C75_delay local boots ops n l1 t p l2 :
  peers_run (peers_start local boots) ops = Some (n, l1 ++ PDial t p :: l2) ->
  p ∈ boots /\ p <> local /\ exists t0, PGone t0 p ∈ l1 /\ t0 + 12000 <= t.
Proof. exact (delay_pf local boots ops n l1 t p l2). Qed.
Print Assumptions C75_delay.

(** The redials of one bootnode are not 12 seconds apart from each other: every lost
    connection schedules one. *)
Theorem C75_not_spaced : exists local boots ops n l1 t p l2,
  peers_run (peers_start local boots) ops = Some (n, l1 ++ PDial t p :: PDial t p :: l2).
Proof. exists 0, [0; 1; 2], pe_ops. destruct pe_out as [n Hn]. exists n, [PStatus 0 1; PGone 0 1; PStatus 0 1; PGone 0 1], 12000, 1, []. exact Hn. Qed.
Print Assumptions C75_not_spaced.

(** Two bootnodes besides the node itself: peer 1 answers, is lost and is being dialled
    again; peer 2 fails and waits. *)
Example C75_nonvacuous : exists n out,
  peers_run (peers_start 0 [0; 1; 2])
    [PoDialOk 1; PoHandle; PoDrop 1; PoHandle; PoWait 11000; PoDialFail 2; PoHandle; PoWait 1000;
     PoTimer 1 12000; PoCommand false] = Some (n, out) /\
  pn_events n = [] /\ pn_cmds n = [] /\ pn_dials n = [1] /\ pn_timers n = [(2, 23000)] /\ pn_now n = 12000 /\
  out = [PStatus 0 1; PGone 0 1; PGone 11000 2; PDial 12000 1].
Proof. eexists _, _. split; [vm_compute; reflexivity|]. done. Qed.
(** Two connections to one peer: it stays connected when one is closed. *)
Example C75_connected_nonvacuous : exists n out,
  peers_run (peers_start 0 [1]) [PoIncoming 5; PoDialOk 1; PoIncoming 5; PoDrop 5; PoHandle; PoHandle; PoHandle; PoHandle]
    = Some (n, out) /\
  pn_events n = [] /\ conns_of n 5 = 1 /\ bool_decide (5 ∈ pn_connected n) = true.
Proof. eexists _, _. split; [vm_compute; reflexivity|]. done. Qed.
