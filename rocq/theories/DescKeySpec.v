(** What maps with descriptors as keys should be: maps with names as keys, wherever the names are in memory. *)
From stdpp Require Import gmap list.
From Coq Require Import ZArith Sorted.
From Verif Require Import DescModel DescSpec PolyModel DescKeyModel.

(** a descriptor of the type named [s]; [mem]: what is at an address *)
Definition names (mem : nat -> chars) (d : descriptor) (s : chars) : Prop := d_mem d = mem (d_addr d) /\ cstring (d_mem d) s.

(** the names of all types are in this memory *)
Definition stored (O : obs) (mem : nat -> chars) : Prop := forall T, d_mem (ob_desc O T) = mem (d_addr (ob_desc O T)).

Section Values.
  Context {X : Type} (mem : nat -> chars).
  (** what programs make of a std::map and of a map with names as keys; the tree may be rebalanced at any time *)
  Inductive map_history : dtree X -> gmap chars X -> Prop :=
  | map_new : map_history DLeaf ∅
  | map_puts t m d s x t' : map_history t m -> names mem d s -> map_put t d x = Some t' -> map_history t' (<[s := x]> m)
  | map_erases t m d s t' : map_history t m -> names mem d s -> map_erase t d = Some t' -> map_history t' (delete s m)
  | map_rebalances t m t' : map_history t m -> in_order t' = in_order t -> map_history t' m.
  (** and of a std::unordered_map *)
  Inductive table_history (h : chars -> nat) (cached : bool) : list (list (nat * descriptor * X)) -> gmap chars X -> Prop :=
  | table_new n : 0 < n -> table_history h cached (replicate n []) ∅
  | table_puts t m d s x t' : table_history h cached t m -> names mem d s -> table_put h cached t d x = Some t' ->
      table_history h cached t' (<[s := x]> m)
  | table_erases t m d s t' : table_history h cached t m -> names mem d s -> table_erase h cached t d = Some t' ->
      table_history h cached t' (delete s m)
  | table_rehashes t m n t' : table_history h cached t m -> 0 < n -> table_rehash h cached t n = Some t' -> table_history h cached t' m.
  (** [l] lists the entries of [m] *)
  Definition lists_unordered (l : list (descriptor * X)) (m : gmap chars X) : Prop :=
    exists L : list (chars * X), Forall2 (fun p q => names mem p.1 q.1 /\ p.2 = q.2) l L /\ L ≡ₚ map_to_list m.
  (** in the order of the names *)
  Definition lists (l : list (descriptor * X)) (m : gmap chars X) : Prop :=
    exists L : list (chars * X), Forall2 (fun p q => names mem p.1 q.1 /\ p.2 = q.2) l L /\
      StronglySorted (fun p q => before p.1 q.1) L /\ L ≡ₚ map_to_list m.
End Values.
