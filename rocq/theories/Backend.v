(** The storage backends: crates/storage/src/api, crates/storage/src/backend. *)
From Coq Require Import Ascii String.
From stdpp Require Import strings sorting.
From Verif Require Export Keys.
Local Open Scope N_scope.

Notation bytes := (list N).

(** crates/storage/src/api/tables.rs:3-38 *)
Inductive Table := BlockHeaders | BlockBodies | BlockProof | BlockRoots | States | StateDiffs | Metadata | LiveChain.
(** tables.rs:40-49 *)
Definition ALL_TABLES : list Table :=
  [BlockHeaders; BlockBodies; BlockProof; BlockRoots; States; StateDiffs; Metadata; LiveChain].
(** tables.rs:53-64 *)
Definition table_name (t : Table) : string :=
  match t with
  | BlockHeaders => "block_headers" | BlockBodies => "block_bodies" | BlockProof => "block_proof"
  | BlockRoots => "block_roots" | States => "states" | StateDiffs => "state_diffs"
  | Metadata => "metadata" | LiveChain => "live_chain"
  end%string.
Global Instance table_eq : EqDecision Table.
Proof. solve_decision. Defined.

(** The order of byte strings ([Vec<u8>::cmp], RocksDB's bytewise comparator). *)
Fixpoint lexb (a b : bytes) : bool :=
  match a, b with
  | [], [] => false
  | [], _ :: _ => true
  | _ :: _, [] => false
  | x :: a', y :: b' => (x <? y) || ((x =? y) && lexb a' b')
  end.
Definition starts_with (p k : bytes) : bool := bool_decide (p `prefix_of` k).

Notation TableData := (gmap bytes bytes).

(** What a write batch is told to do (crates/storage/src/api/traits.rs:39-57). *)
Inductive BatchCall :=
| b_put (t : Table) (l : list (bytes * bytes))
| b_delete (t : Table) (l : list bytes)
| b_range (t : Table) (from to : bytes).
Inductive PendingOp := PPut (k v : bytes) | PDelete (k : bytes) | PRange (from to : bytes).

(** One operation on a table (backend/in_memory.rs:135-147; RocksDB: its documentation). *)
Definition apply_op (op : PendingOp) (m : TableData) : TableData :=
  match op with
  | PPut k v => <[k := v]> m
  | PDelete k => delete k m
  | PRange from to => filter (fun x => lexb x.1 from || negb (lexb x.1 to) = true) m
  end.

Definition key_le (x y : bytes * bytes) : Prop := lexb y.1 x.1 = false.
Global Instance key_le_dec : RelDecision key_le.
Proof. intros x y. unfold key_le. apply _. Defined.

(** *** In memory: crates/storage/src/backend/in_memory.rs *)
(** in_memory.rs:8-9; a table that is not there is [None] *)
Definition MemData := Table -> option TableData.
(** in_memory.rs:30-40 *)
Definition mem_new : MemData := fun t => if bool_decide (t ∈ ALL_TABLES) then Some ∅ else None.
(** in_memory.rs:69-76 *)
Definition mem_get (d : MemData) (t : Table) (k : bytes) : res unit (option bytes) :=
  match d t with Some m => Ok (m !! k) | None => Panic end.
(** in_memory.rs:78-100 *)
Definition mem_iter (d : MemData) (t : Table) (p : bytes) : res unit (list (bytes * bytes)) :=
  match d t with
  | Some m => Ok (merge_sort key_le (List.filter (fun x => starts_with p x.1) (map_to_list m)))
  | None => Panic
  end.
(** in_memory.rs:110-128 *)
Definition mem_call (ops : list (Table * PendingOp)) (c : BatchCall) : list (Table * PendingOp) :=
  ops ++ match c with
         | b_put t l => map (fun x => (t, PPut x.1 x.2)) l
         | b_delete t l => map (fun k => (t, PDelete k)) l
         | b_range t from to => [(t, PRange from to)]
         end.
(** in_memory.rs:130-151 *)
Fixpoint mem_apply (d : MemData) (ops : list (Table * PendingOp)) : res unit MemData :=
  match ops with
  | [] => Ok d
  | (t, op) :: ops' =>
      match d t with
      | Some m => mem_apply (fun u => if bool_decide (u = t) then Some (apply_op op m) else d u) ops'
      | None => Panic
      end
  end.
Definition mem_commit (d : MemData) (cs : list BatchCall) : res unit MemData :=
  mem_apply d (fold_left mem_call cs []).

(** *** RocksDB: crates/storage/src/backend/rocksdb.rs *)
(** Column families by name; each is an ordered map.  The database itself is modelled from
    its documentation. *)
Notation RocksData := (gmap string TableData).
(** rocksdb.rs:29-63: one column family for every table *)
Definition rk_new : RocksData := foldr (fun t d => <[table_name t := ∅]> d) ∅ ALL_TABLES.
(** rocksdb.rs:106-113 *)
Definition rk_get (d : RocksData) (t : Table) (k : bytes) : res unit (option bytes) :=
  match d !! table_name t with Some m => Ok (m !! k) | None => Err tt end.
Fixpoint drop_while {A} (f : A -> bool) (l : list A) : list A :=
  match l with [] => [] | x :: l' => if f x then drop_while f l' else l end.
Fixpoint take_while {A} (f : A -> bool) (l : list A) : list A :=
  match l with [] => [] | x :: l' => if f x then x :: take_while f l' else [] end.
(** rocksdb.rs:115-136: the keys in order from the first one that is not below the prefix,
    as long as they start with it *)
Definition rk_iter (d : RocksData) (t : Table) (p : bytes) : res unit (list (bytes * bytes)) :=
  match d !! table_name t with
  | Some m => Ok (take_while (fun x => starts_with p x.1)
                    (drop_while (fun x => lexb x.1 p) (merge_sort key_le (map_to_list m))))
  | None => Err tt
  end.
(** rocksdb.rs:146-178 *)
Definition rk_call (d : RocksData) (batch : list (string * PendingOp)) (c : BatchCall) : res unit (list (string * PendingOp)) :=
  let t := match c with b_put t _ => t | b_delete t _ => t | b_range t _ _ => t end in
  match d !! table_name t with
  | None => Err tt
  | Some _ =>
      Ok (batch ++ match c with
                   | b_put t l => map (fun x => (table_name t, PPut x.1 x.2)) l
                   | b_delete t l => map (fun k => (table_name t, PDelete k)) l
                   | b_range t from to => [(table_name t, PRange from to)]
                   end)
  end.
Fixpoint rk_calls (d : RocksData) (batch : list (string * PendingOp)) (cs : list BatchCall) : res unit (list (string * PendingOp)) :=
  match cs with
  | [] => Ok batch
  | c :: cs' => let! b := rk_call d batch c in rk_calls d b cs'
  end.
(** RocksDB applies a batch in order and as a whole; a range whose end comes before its
    start is refused. *)
Fixpoint rk_apply (d : RocksData) (batch : list (string * PendingOp)) : res unit RocksData :=
  match batch with
  | [] => Ok d
  | (n, op) :: b' =>
      if match op with PRange from to => lexb to from | _ => false end then Err tt
      else match d !! n with
           | Some m => rk_apply (<[n := apply_op op m]> d) b'
           | None => Err tt
           end
  end.
(** rocksdb.rs:180-186: [write_opt] *)
Definition rk_commit (d : RocksData) (cs : list BatchCall) : res unit RocksData :=
  let! b := rk_calls d [] cs in rk_apply d b.

(** A history: batches, committed or dropped. *)
Fixpoint mem_run (d : MemData) (h : list (list BatchCall * bool)) : res unit MemData :=
  match h with
  | [] => Ok d
  | (cs, true) :: h' => let! d' := mem_commit d cs in mem_run d' h'
  | (_, false) :: h' => mem_run d h'
  end.
Fixpoint rk_run (d : RocksData) (h : list (list BatchCall * bool)) : res unit RocksData :=
  match h with
  | [] => Ok d
  | (cs, true) :: h' => let! d' := rk_commit d cs in rk_run d' h'
  | (_, false) :: h' => rk_run d h'
  end.
