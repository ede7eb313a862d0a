(** How the command line and the configuration files become settings.  Models
    bin/ethlambda/src/cli.rs:75-76, 156-166, bin/ethlambda/src/main.rs:168-178,
    202-207, 634-641 and
    bin/ethlambda/src/checkpoint_sync.rs:20-23, 117-152.  The parsers of the command line and of
    YAML are left out. *)
From Coq Require Import Ascii String.
From Verif Require Export Collector Text Gossip.
Local Open Scope N_scope.

(** [char::is_whitespace]; simplified: ASCII only *)
Definition is_blank (c : ascii) : bool := let n := N_of_ascii c in ((9 <=? n) && (n <=? 13)) || (n =? 32).
Fixpoint trim_start (s : list ascii) : list ascii :=
  match s with c :: s' => if is_blank c then trim_start s' else s | [] => [] end.
(** [str::trim] *)
Definition trim (s : string) : string :=
  string_of_list_ascii (rev (trim_start (rev (trim_start (list_ascii_of_string s))))).
(** main.rs:202-207 *)
Definition clean_checkpoint_urls (l : list string) : list string :=
  List.filter (fun u => negb (String.eqb u EmptyString)) (map trim l).

(** checkpoint_sync.rs:20, 23 *)
Definition FINALIZED_STATE_PATH : string := "/lean/v0/states/finalized".
Definition FINALIZED_BLOCK_PATH : string := "/lean/v0/blocks/finalized".
(** [str::strip_suffix], by the prefix of the reversed text *)
Fixpoint strip_list (p s : list ascii) : option (list ascii) :=
  match p, s with
  | [], _ => Some s
  | a :: p', b :: s' => if ascii_dec a b then strip_list p' s' else None
  | _ :: _, [] => None
  end.
Definition strip_end (suffix s : list ascii) : option (list ascii) :=
  match strip_list (rev suffix) (rev s) with Some r => Some (rev r) | None => None end.
(** checkpoint_sync.rs:117-125 *)
Definition normalize_base_url (url : string) : string :=
  let trimmed := trim_end_slashes (list_ascii_of_string url) in
  string_of_list_ascii
    (match strip_end (list_ascii_of_string FINALIZED_STATE_PATH) trimmed with Some b => b | None => trimmed end).
(** checkpoint_sync.rs:135, 146 *)
Definition state_url (url : string) : string := (normalize_base_url url ++ FINALIZED_STATE_PATH)%string.
Definition block_url (url : string) : string := (normalize_base_url url ++ FINALIZED_BLOCK_PATH)%string.

(** cli.rs:75 [range(1..)] and main.rs:168-178: the number of committees from the command
    line and from the file; [Err]: the node does not start *)
Definition committee_count (cli file : option N) : res unit N :=
  match cli with
  | Some 0 => Err tt
  | _ =>
      let c := match cli with Some c => c | None => match file with Some c => c | None => 1 end end in
      if 1 <=? c then Ok c else Err tt
  end.
(** cli.rs:156-166 *)
Definition validate_discovery (enable : bool) (port gossipsub_port : N) : bool := negb (enable && (port =? gossipsub_port)).

(** [trim_start_matches("0x")]: every leading occurrence *)
Fixpoint trim_start_0x (s : string) : string :=
  match s with
  | String a (String b s') => if ascii_dec a "0" then if ascii_dec b "x" then trim_start_0x s' else s else s
  | _ => s
  end.
(** main.rs:634-641 *)
Definition read_hex_file_bytes (content : string) : option (list N) := hex_decode (trim_start_0x (trim content)).
