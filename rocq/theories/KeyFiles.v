(** The validator key files a node loads when it starts.
    Models bin/ethlambda/src/main.rs:474-632.  Left out: logging and the texts of the
    errors, so that every error is [None]; the YAML parser (the file is given as the map
    it denotes) and the secret key codec are parameters. *)
From Coq Require Import Ascii String.
From Verif Require Export Gossip Serve.
Local Open Scope N_scope.

(** main.rs:480-488; names of files are Unicode because YAML strings are *)
Record Entry := mkEntry { en_index : N; en_pubkey : string; en_file : string }.
(** main.rs:490-503: an entry whose public key is not 52 bytes in hexadecimal makes the
    whole file unreadable *)
Definition pubkey_ok (s : string) : bool :=
  Nat.eqb (String.length s) 104 && forallb (fun c => bool_decide (hex_val c <> None)) (list_ascii_of_string s).

(** [str::contains] *)
Fixpoint contains (sub s : string) : bool :=
  String.prefix sub s || match s with EmptyString => false | String _ s' => contains sub s' end.
(** [Path::file_name]: the last component; empty ones and "." are not components *)
Definition file_name (path : string) : option string :=
  match last (filter (fun c => c <> ""%string /\ c <> "."%string) (split_on "/" path)) with
  | Some c => if String.eqb c ".." then None else Some c
  | None => None
  end.

Inductive Role := Attestation | Proposal.
(** main.rs:515-532 *)
Definition classify_role (file : string) : option Role :=
  match file_name file with
  | None => None
  | Some name =>
      match contains "attester" name, contains "proposer" name with
      | true, false => Some Attestation
      | false, true => Some Proposal
      | _, _ => None
      end
  end.

(** main.rs:565-571, [Path::join] *)
Definition resolve_path (keys_dir file : string) : string :=
  if String.prefix "/" file then file
  else match String.length keys_dir with
       | O => file
       | S n => if bool_decide (String.get n keys_dir = Some "/"%char) then keys_dir +:+ file else keys_dir +:+ "/" +:+ file
       end.

(** main.rs:534-538 *)
Record RoleSlots := mkSlots { rs_att : option string; rs_prop : option string }.
(** main.rs:574-588: one entry; [None]: the entry is refused *)
Definition group_entry (keys_dir : string) (g : gmap N RoleSlots) (e : Entry) : option (gmap N RoleSlots) :=
  match classify_role (en_file e) with
  | None => None
  | Some role =>
      let path := resolve_path keys_dir (en_file e) in
      let slots := default (mkSlots None None) (g !! en_index e) in
      match role with
      | Attestation => match rs_att slots with
                       | Some _ => None
                       | None => Some (<[en_index e := mkSlots (Some path) (rs_prop slots)]> g)
                       end
      | Proposal => match rs_prop slots with
                    | Some _ => None
                    | None => Some (<[en_index e := mkSlots (rs_att slots) (Some path)]> g)
                    end
      end
  end.
Fixpoint group_entries (keys_dir : string) (g : gmap N RoleSlots) (l : list Entry) : option (gmap N RoleSlots) :=
  match l with
  | [] => Some g
  | e :: l' => match group_entry keys_dir g e with None => None | Some g' => group_entries keys_dir g' l' end
  end.

Section Load.
  (** The secret keys, the contents of the files and [ValidatorSecretKey::from_bytes] *)
  Context {K : Type} (disk : string -> option bytes) (from_bytes : bytes -> option K).
  (** main.rs:590-595 *)
  Definition load_key (path : string) : option K := b ← disk path; from_bytes b.
  (** main.rs:598-621: the keys of one index *)
  Definition load_pair (s : RoleSlots) : option (K * K) :=
    att_path ← rs_att s; prop_path ← rs_prop s;
    attestation_key ← load_key att_path; proposal_key ← load_key prop_path;
    Some (attestation_key, proposal_key).
  (** ... of all, [None] if one is refused.  Simplified: the order of the indices decides
      only which error is reported. *)
  Definition load_all (g : gmap N RoleSlots) : option (gmap N (K * K)) :=
    list_to_map <$> mapM (fun x => pair x.1 <$> load_pair x.2) (map_to_list g).
  (** main.rs:540-632; [infos]: the entries per node name, [None]: the file cannot be read
      or is not such a map *)
  Definition read_validator_keys (infos : option (gmap string (list Entry))) (keys_dir node_id : string)
    : option (gmap N (K * K)) :=
    match infos with
    | None => None
    | Some m =>
        if negb (forallb (fun x => forallb (fun e => pubkey_ok (en_pubkey e)) x.2) (map_to_list m)) then None
        else
          match m !! node_id with
          | None => None
          | Some l => match group_entries keys_dir ∅ l with None => None | Some g => load_all g end
          end
    end.
End Load.
