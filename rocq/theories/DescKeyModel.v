(** Model: descriptors as keys of std::map and std::unordered_map, as in registries of types filled from several translation units.
    Source: T = include/anyany/type_descriptor.hpp: T 40-63 comparison, T 127-136 std::hash, as modelled in DescModel.  The containers
    are what every implementation does with its keys; the memory of nodes is not modelled.  Results: None is undefined behaviour. *)
From stdpp Require Import list.
From Verif Require Import DescModel.

(** ** std::map: a binary search tree *)
Inductive dtree (X : Type) : Type := DLeaf | DNode (l : dtree X) (k : descriptor) (x : X) (r : dtree X).
Arguments DLeaf {X}. Arguments DNode {X}.

Section Values.
  Context {X : Type}.
  Notation tree := (dtree X).

  (** std::less: a < b is rewritten to (a <=> b) < 0, T 56-63 *)
  Definition desc_less (a b : descriptor) : option bool :=
    match desc_cmp a b with Some Lt => Some true | Some _ => Some false | None => None end.
  (** lower_bound: the last node that was not less on the way down *)
  Fixpoint map_lower (t : tree) (k : descriptor) (y : option (descriptor * X)) : option (option (descriptor * X)) :=
    match t with
    | DLeaf => Some y
    | DNode l j x r => match desc_less j k with
                       | Some true => map_lower r k y
                       | Some false => map_lower l k (Some (j, x))
                       | None => None
                       end
    end.
  (** find *)
  Definition map_find (t : tree) (k : descriptor) : option (option X) :=
    match map_lower t k None with
    | Some None => Some None
    | Some (Some (j, x)) => match desc_less k j with Some true => Some None | Some false => Some (Some x) | None => None end
    | None => None
    end.
  (** insert_or_assign, and operator[] followed by assignment: an equivalent key stays.  Simplified: both comparisons are made at each
      node, implementations make the second one at the end. *)
  Fixpoint map_put (t : tree) (k : descriptor) (x : X) : option tree :=
    match t with
    | DLeaf => Some (DNode DLeaf k x DLeaf)
    | DNode l j y r =>
        match desc_less j k, desc_less k j with
        | Some true, Some _ => match map_put r k x with Some r' => Some (DNode l j y r') | None => None end
        | Some false, Some true => match map_put l k x with Some l' => Some (DNode l' j y r) | None => None end
        | Some false, Some false => Some (DNode l j x r)
        | _, _ => None
        end
    end.
  (** erase(key); simplified as map_put.  Rebalancing is left open: see map_history. *)
  Fixpoint map_join (l r : tree) : tree := match l with DLeaf => r | DNode a j x b => DNode a j x (map_join b r) end.
  Fixpoint map_erase (t : tree) (k : descriptor) : option tree :=
    match t with
    | DLeaf => Some DLeaf
    | DNode l j y r =>
        match desc_less j k, desc_less k j with
        | Some true, Some _ => match map_erase r k with Some r' => Some (DNode l j y r') | None => None end
        | Some false, Some true => match map_erase l k with Some l' => Some (DNode l' j y r) | None => None end
        | Some false, Some false => Some (map_join l r)
        | _, _ => None
        end
    end.
  (** the elements in the order of iteration *)
  Fixpoint in_order (t : tree) : list (descriptor * X) :=
    match t with DLeaf => [] | DNode l j x r => in_order l ++ (j, x) :: in_order r end.

  (** ** std::unordered_map: buckets of nodes with hash code, key and value *)
  Section Hash.
    Context (h : chars -> nat) (cached : bool).
    Notation node := (nat * descriptor * X)%type.
    Notation table := (list (list node)).
    (** with cached codes these are compared first *)
    Definition same_key (c : nat) (k : descriptor) (n : node) : option bool :=
      if cached && negb (n.1.1 =? c) then Some false else desc_eq k n.1.2.
    Fixpoint find_in (c : nat) (k : descriptor) (l : list node) : option (option X) :=
      match l with
      | [] => Some None
      | n :: l => match same_key c k n with Some true => Some (Some n.2) | Some false => find_in c k l | None => None end
      end.
    Fixpoint put_in (c : nat) (k : descriptor) (x : X) (l : list node) : option (list node) :=
      match l with
      | [] => Some [(c, k, x)]
      | n :: l => match same_key c k n with
                  | Some true => Some ((n.1, x) :: l)
                  | Some false => match put_in c k x l with Some l' => Some (n :: l') | None => None end
                  | None => None
                  end
      end.
    Fixpoint erase_in (c : nat) (k : descriptor) (l : list node) : option (list node) :=
      match l with
      | [] => Some []
      | n :: l => match same_key c k n with
                  | Some true => Some l
                  | Some false => match erase_in c k l with Some l' => Some (n :: l') | None => None end
                  | None => None
                  end
      end.
    (** no buckets: operator% by zero *)
    Definition table_find (s : table) (k : descriptor) : option (option X) :=
      match desc_hash h k with
      | Some c => match s !! (c mod length s) with Some l => find_in c k l | None => None end
      | None => None
      end.
    Definition table_change (f : nat -> list node -> option (list node)) (s : table) (k : descriptor) : option table :=
      match desc_hash h k with
      | Some c => match s !! (c mod length s) with
                  | Some l => match f c l with Some l' => Some (<[c mod length s := l']> s) | None => None end
                  | None => None
                  end
      | None => None
      end.
    Definition table_put (s : table) (k : descriptor) (x : X) : option table := table_change (fun c => put_in c k x) s k.
    Definition table_erase (s : table) (k : descriptor) : option table := table_change (fun c => erase_in c k) s k.
    (** rehash: the codes are computed again unless they are cached *)
    Fixpoint table_place (l : list node) (s : table) : option table :=
      match l with
      | [] => Some s
      | n :: l => match (if cached then Some n.1.1 else desc_hash h n.1.2) with
                  | Some c => match s !! (c mod length s) with
                              | Some b => table_place l (<[c mod length s := (c, n.1.2, n.2) :: b]> s)
                              | None => None
                              end
                  | None => None
                  end
      end.
    Definition table_rehash (s : table) (n : nat) : option table := table_place (concat s) (replicate n []).
  End Hash.
End Values.
