(** Programs that use a std::unordered_set of anys, among other anys (C100). *)
From stdpp Require Import gmap list.
From Verif Require Import AnyModel AnyInv AnyHistory AnyFacts PolyModel PolySpec VectorSpec KeyModel KeySpec.

Definition names (s : uset) : list nat := map snd (concat s).

(** [S]: the values that the operations, as the standard describes them, leave in the set *)
Inductive set_history (E : env) (O : obs) (ms : list method) (cached : bool) : world -> uset -> list value -> Prop :=
| sh_empty w n : reachable E w -> 0 < n -> set_history E O ms cached w (replicate n []) []
(** any operation of the program on anys that are not in the set *)
| sh_other w s S o w' : set_history E O ms cached w s S -> pre E w o -> alloc_safe E w o -> (forall x, In x (names s) -> x ∉ touches o) ->
    outcome E o w w' -> set_history E O ms cached w' s S
| sh_insert w s S k v x s' b w' : set_history E O ms cached w s S -> key ms w k v -> w_any w !! x = None -> ~ member O S v ->
    u_insert E O ms cached s k x w = Ok (s', b) w' -> set_history E O ms cached w' s' (v :: S)
| sh_insert_present w s S k v x s' b w' : set_history E O ms cached w s S -> key ms w k v -> w_any w !! x = None -> member O S v ->
    u_insert E O ms cached s k x w = Ok (s', b) w' -> set_history E O ms cached w' s' S
| sh_insert_throws w s S k v x w' : set_history E O ms cached w s S -> key ms w k v -> w_any w !! x = None ->
    u_insert E O ms cached s k x w = Exn w' -> set_history E O ms cached w' s S
| sh_erase w s S k v s' b w' S' : set_history E O ms cached w s S -> key ms w k v -> without O S S' v ->
    u_erase E O cached s k w = Ok (s', b) w' -> set_history E O ms cached w' s' S'
| sh_erase_absent w s S k v s' b w' : set_history E O ms cached w s S -> key ms w k v -> ~ member O S v ->
    u_erase E O cached s k w = Ok (s', b) w' -> set_history E O ms cached w' s' S
| sh_rehash w s S n s' w' : set_history E O ms cached w s S -> 0 < n -> u_rehash O cached s n w = Ok s' w' -> set_history E O ms cached w' s' S.

(** Programs that use a std::set of anys whose values all have the type [T], among other anys. *)
Fixpoint inorder (t : tree) : list nat := match t with Leaf => [] | Node l x r => inorder l ++ x :: inorder r end.
(** [L]: the values that the operations, as the standard describes them, leave in the set, in order *)
Inductive tree_history (E : env) (O : obs) (ms : list method) (T : nat) : world -> tree -> list nat -> Prop :=
| th_empty w : reachable E w -> tree_history E O ms T w Leaf []
| th_other w t L o w' : tree_history E O ms T w t L -> pre E w o -> alloc_safe E w o -> (forall x, In x (inorder t) -> x ∉ touches o) ->
    outcome E o w w' -> tree_history E O ms T w' t L
| th_insert w t L k x n t' b w' L' : tree_history E O ms T w t L -> key ms w k (Some (T, x)) -> w_any w !! n = None -> placed O T L x L' ->
    t_insert E O ms t k n w = Ok (t', b) w' -> tree_history E O ms T w' t' L'
| th_insert_present w t L k x n t' b w' : tree_history E O ms T w t L -> key ms w k (Some (T, x)) -> w_any w !! n = None -> has_equivalent O T L x ->
    t_insert E O ms t k n w = Ok (t', b) w' -> tree_history E O ms T w' t' L
| th_insert_throws w t L k x n w' : tree_history E O ms T w t L -> key ms w k (Some (T, x)) -> w_any w !! n = None ->
    t_insert E O ms t k n w = Exn w' -> tree_history E O ms T w' t L
| th_erase w t L k x t' b w' L' : tree_history E O ms T w t L -> key ms w k (Some (T, x)) -> taken O T L x L' ->
    t_erase E O t k w = Ok (t', b) w' -> tree_history E O ms T w' t' L'
| th_erase_absent w t L k x t' b w' : tree_history E O ms T w t L -> key ms w k (Some (T, x)) -> ~ has_equivalent O T L x ->
    t_erase E O t k w = Ok (t', b) w' -> tree_history E O ms T w' t' L
(** the tree may be balanced at any time *)
| th_balance w t L t' : tree_history E O ms T w t L -> inorder t' = inorder t -> tree_history E O ms T w t' L.
