(** Settings from the command line and the configuration files. *)
From Coq Require Import Ascii String.
From Verif Require Import OptionsSpec OptionsProofs GossipProofs.
Local Open Scope N_scope.

(** ** C90 settings *)

(** The base URL of a peer may be given alone or as the URL of its finalized state, with any
    number of slashes at the end: the node asks for the state and the block of this peer. *)
Theorem C90_requests_partial u k url : ~ ends_with "/" u -> ~ ends_with "/lean/v0/states/finalized" u ->
  url = (u ++ slashes k)%string \/ url = (u ++ "/lean/v0/states/finalized" ++ slashes k)%string ->
  state_url url = (u ++ "/lean/v0/states/finalized")%string /\ block_url url = (u ++ "/lean/v0/blocks/finalized")%string.
Proof.
  intros H1 H2 [-> | ->]; unfold state_url, block_url; [rewrite (base_plain u k H1 H2)|rewrite (base_legacy u k)]; split; reflexivity.
Qed.
Print Assumptions C90_requests_partial.
(** In full this would hold of a base URL written with a slash as well.  It does not: with the
    path of the state after it, the slash stays, and both requests have two. *)
Theorem C90_requests_refuted : exists u,
  block_url (u ++ "/") = (u ++ "/lean/v0/blocks/finalized")%string /\
  block_url ((u ++ "/") ++ "/lean/v0/states/finalized") = (u ++ "//lean/v0/blocks/finalized")%string.
Proof. exists "http://peer:5052"%string. split; vm_compute; reflexivity. Qed.
Print Assumptions C90_requests_refuted.

(** The URLs tried are those given, in the same order, without the blanks around them;
    blank ones do not count. *)
Theorem C90_urls l k a s b : blank a -> blank b -> tight s -> s <> EmptyString ->
  clean_checkpoint_urls (l ++ [(a ++ s ++ b)%string] ++ k) = (clean_checkpoint_urls l ++ s :: clean_checkpoint_urls k)%list /\
  clean_checkpoint_urls (l ++ [a] ++ k) = (clean_checkpoint_urls l ++ clean_checkpoint_urls k)%list /\ clean_checkpoint_urls [] = [].
Proof.
  intros Ha Hb Hs Hn. rewrite !clean_app, (clean_one a s b Ha Hb Hs Hn), (clean_blank a Ha). split; [reflexivity|]. split; reflexivity.
Qed.
Print Assumptions C90_urls.

(** The node runs with the number of committees of the command line, or else of the file, or
    else one, and never with none: choosing the subnets does not divide by zero. *)
Theorem C90_committees cli file c :
  (committee_count cli file = Ok c <->
   1 <= c /\ (cli = Some c \/ cli = None /\ (file = Some c \/ file = None /\ c = 1))) /\
  (committee_count cli file = Ok c -> forall vs agg extra, attestation_subscription_subnets vs c agg extra <> Panic) /\
  committee_count cli file <> Panic.
Proof.
  split; [exact (committee_iff cli file c)|]. split; [|exact (committee_no_panic cli file)]. intros H vs agg extra.
  apply committee_iff in H as [Hc _]. destruct (C54_subnets_pf vs c agg extra Hc) as (x & -> & _). discriminate.
Qed.
Print Assumptions C90_committees.

(** A start with discovery is refused exactly when both sockets would have the same port. *)
Theorem C90_ports enable p q : validate_discovery enable p q = false <-> enable = true /\ p = q.
Proof. unfold validate_discovery. destruct enable; cbn; [|intuition discriminate]. destruct (N.eqb_spec p q); cbn; intuition congruence. Qed.
Print Assumptions C90_ports.

(** The key file of the node may have blanks around the digits, "0x" before them any number of
    times, and letters of either case. *)
Theorem C90_key_file a k t b l : blank a -> blank b -> Forall (fun b => b < 256) l ->
  lowercase t = hex_digits (2 * length l) (be l) EmptyString -> read_hex_file_bytes (a ++ (ox k ++ t) ++ b) = Some l.
Proof. exact (hex_file_pf a k t b l). Qed.
Print Assumptions C90_key_file.

(** Non-vacuity. *)
Example C90_examples :
  state_url "http://p:1/lean/v0/states/finalized//" = "http://p:1/lean/v0/states/finalized"%string /\
  block_url "http://p:1///" = "http://p:1/lean/v0/blocks/finalized"%string /\
  clean_checkpoint_urls [" http://a "; ""; "  "; "http://b"]%list = ["http://a"; "http://b"]%list /\
  committee_count None (Some 4) = Ok 4 /\ committee_count (Some 2) (Some 4) = Ok 2 /\ committee_count None None = Ok 1 /\
  committee_count None (Some 0) = Err tt /\ committee_count (Some 0) (Some 4) = Err tt /\
  read_hex_file_bytes " 0x0x0aFF " = Some [10; 255] /\ read_hex_file_bytes "0x0" = None.
Proof. repeat split; vm_compute; reflexivity. Qed.
Example C90_tight : blank " " /\ tight "http://a" /\ ~ ends_with "/" "http://a" /\ ~ ends_with "/lean/v0/states/finalized" "http://a".
Proof.
  split; [constructor; [left; reflexivity|constructor]|]. split; [apply solid_tight; repeat constructor|].
  split; intros (t & Ht); repeat (destruct t as [|? t]; [discriminate Ht|injection Ht as _ Ht]); destruct t; discriminate Ht.
Qed.
