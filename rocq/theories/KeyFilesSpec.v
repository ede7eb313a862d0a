(** What it means that keys are the ones listed. *)
From Coq Require Import Ascii String.
From Verif Require Export KeyFiles.
Local Open Scope N_scope.

(** [sub] occurs in [s]. *)
Definition occurs (sub s : string) : Prop := exists a b, s = (a +:+ sub +:+ b)%string.
(** Slashes and single dots, which may follow a file's name in a path. *)
Inductive blank_tail : string -> Prop :=
| bt_nil : blank_tail ""
| bt_slash t : blank_tail t -> blank_tail ("/" +:+ t)
| bt_dot t : blank_tail t -> blank_tail ("/." +:+ t).
(** The file of a path is called [name]: the last part between slashes. *)
Definition file_called (path name : string) : Prop :=
  name <> ""%string /\ name <> "."%string /\ name <> ".."%string /\ ~ occurs "/" name /\
  exists dir tail, path = (dir +:+ name +:+ tail)%string /\
    (dir = ""%string \/ exists d, dir = (d +:+ "/")%string) /\ blank_tail tail.
(** The entry's file is named as a key of the given role: the name contains the role's word
    and not the other's. *)
Definition named (e : Entry) (r : Role) : Prop :=
  exists name, file_called (en_file e) name /\
    match r with
    | Attestation => occurs "attester" name /\ ~ occurs "proposer" name
    | Proposal => occurs "proposer" name /\ ~ occurs "attester" name
    end.
(** Where the file is: an absolute path as it is, another one in the directory of keys. *)
Definition located (keys_dir : string) (e : Entry) (path : string) : Prop :=
  (exists rest, en_file e = ("/" +:+ rest)%string /\ path = en_file e) \/
  ((forall rest, en_file e <> ("/" +:+ rest)%string) /\
   ((keys_dir = "" /\ path = en_file e) \/
    (exists d, keys_dir = (d +:+ "/") /\ path = keys_dir +:+ en_file e) \/
    (keys_dir <> "" /\ (forall d, keys_dir <> (d +:+ "/")) /\ path = keys_dir +:+ "/" +:+ en_file e)))%string.

Section Spec.
  Context {K : Type} (disk : string -> option bytes) (from_bytes : bytes -> option K).
  (** The entry's file holds the key. *)
  Definition holds_key (keys_dir : string) (e : Entry) (k : K) : Prop :=
    exists path b, located keys_dir e path /\ disk path = Some b /\ from_bytes b = Some k.
  (** [keys] are the keys the entries list: every entry has exactly one role, no two have
      the same index and role, and every index listed has both keys. *)
  Record listed_keys (keys_dir : string) (l : list Entry) (keys : gmap N (K * K)) : Prop := {
    lk_role : forall e, e ∈ l -> exists r, named e r;
    lk_one : forall i j e e' r, l !! i = Some e -> l !! j = Some e' -> en_index e = en_index e' ->
             named e r -> named e' r -> i = j;
    lk_all : forall e, e ∈ l -> is_Some (keys !! en_index e);
    lk_key : forall v a p, keys !! v = Some (a, p) ->
             (exists e, e ∈ l /\ en_index e = v /\ named e Attestation /\ holds_key keys_dir e a) /\
             (exists e, e ∈ l /\ en_index e = v /\ named e Proposal /\ holds_key keys_dir e p) }.
End Spec.
