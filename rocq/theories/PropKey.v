(** Properties C100, C101: anys as keys of std::unordered_set and of std::set. *)
From stdpp Require Import gmap list sorting.
From Verif Require Import TypeListModel AnyModel AnyInv AnyHistory AnyFacts AnyExamples PolyModel PolySpec PolyExamples VectorSpec KeyModel KeySpec KeyHistory KeyExamples.

(** C100: whatever was done before, the set has the values that the operations put into it *)
Theorem C100_unordered_set :
  forall E O ms cached w s S, env_wf E -> obs_wf O -> hashable O -> key_class ms -> set_history E O ms cached w s S ->
  reachable E w /\ NoDup (names s) /\ (forall x, In x (names s) -> has_any w x (fun a => a_ms a = ms)) /\ hold_values w (names s) S /\ distinct O S.
Proof. exact hashed_holds. Qed.
Print Assumptions C100_unordered_set.
Example C100_ex : env_wf (keyE []) /\ obs_wf obs0 /\ hashable obs0 /\ key_class eqs /\
  set_history (keyE []) obs0 eqs true w5 (bt u5).1 [None; Some (5, 10)] /\ names (bt u5).1 = [21; 22] /\ map (content w5) [21; 22] = [Some (Some (5, 10)); Some None].
Proof.
  split; [apply mkE_wf|]. split; [apply obs0_wf|]. split; [apply obs0_hashable|]. split; [apply eqs_class|]. split; [apply u5_history|]. split; by_vm.
Qed.
Theorem C100_contains :
  forall E O ms cached w s S, env_wf E -> obs_wf O -> hashable O -> key_class ms -> set_history E O ms cached w s S ->
  forall k v, key ms w k v -> exists b, u_contains O cached s k w = Ok b w /\ (b = true <-> member O S v).
Proof. exact hashed_contains. Qed.
Print Assumptions C100_contains.
Example C100_ex_contains : set_history (keyE []) obs0 eqs true w3 (bt u3).1 [None; Some (5, 10); Some (1, 10)] /\ key eqs w3 1 (Some (1, 10)) /\
  got false (u_contains obs0 true (bt u3).1 1 w3) = true /\ got true (u_contains obs0 true (bt u5).1 1 w5) = false /\
  got false (u_contains obs0 true (bt u5).1 3 w5) = true.
Proof. split; [apply u3_history|]. split; [apply keyb_sound; by_vm|]. split; [by_vm|]. split; by_vm. Qed.
Theorem C100_insert :
  forall E O ms cached w s S, env_wf E -> obs_wf O -> hashable O -> key_class ms -> set_history E O ms cached w s S ->
  forall k v x, key ms w k v -> w_any w !! x = None ->
  match u_insert E O ms cached s k x w with
  | Ok (s', b) w' => (b = true <-> ~ member O S v) /\ hold_values w' (names s') (if b then v :: S else S) /\
      (if b then names s' ≡ₚ x :: names s /\ content w' x = Some v else s' = s /\ w' = w) /\ (forall j, j <> x -> view w' j = view w j)
  | Exn w' => ~ member O S v /\ w_any w' !! x = None /\ (forall j, view w' j = view w j)
  | UB _ | Term => False
  end.
Proof. exact hashed_insert. Qed.
Print Assumptions C100_insert.
(** present; absent; the copy throws *)
Example C100_ex_insert : (bt (u_insert (keyE []) obs0 eqs true (bt u3).1 1 30 w3)).2 = false /\ (bt u3).2 = true /\
  match u_insert (keyE [14]) obs0 eqs false [[]; []] 0 20 (kw [14]) with Exn _ => True | _ => False end /\
  set_history (keyE [14]) obs0 eqs false (kw [14]) (replicate 2 []) [].
Proof. split; [by_vm|]. split; [by_vm|]. split; [vm_compute; exact I|]. constructor; [apply kw_reachable; by right|lia]. Qed.
Theorem C100_erase :
  forall E O ms cached w s S, env_wf E -> obs_wf O -> hashable O -> key_class ms -> set_history E O ms cached w s S ->
  forall k v, key ms w k v ->
  exists s' b w', u_erase E O cached s k w = Ok (s', b) w' /\ (b = true <-> member O S v) /\ (b = false -> s' = s /\ w' = w) /\
    (b = true -> forall S', without O S S' v -> hold_values w' (names s') S') /\
    (b = true -> exists x, names s ≡ₚ x :: names s' /\ w_any w' !! x = None /\ (forall j, j <> x -> view w' j = view w j)).
Proof. exact hashed_erase. Qed.
Print Assumptions C100_erase.
Example C100_ex_erase : (bt u5).2 = true /\ names (bt u3).1 = [22; 21; 20] /\ names (bt u5).1 = [21; 22] /\ w_any w5 !! 20 = None /\
  (bt (u_erase (keyE []) obs0 true (bt u5).1 1 w5)).2 = false.
Proof. split; [by_vm|]. split; [by_vm|]. split; [by_vm|]. split; by_vm. Qed.
Theorem C100_rehash :
  forall E O ms cached w s S, env_wf E -> obs_wf O -> hashable O -> key_class ms -> set_history E O ms cached w s S ->
  forall n, 0 < n -> exists s', u_rehash O cached s n w = Ok s' w /\ length s' = n /\ names s' ≡ₚ names s /\ hold_values w (names s') S.
Proof. exact hashed_rehash. Qed.
Print Assumptions C100_rehash.
Example C100_ex_rehash : (bt u3).1 <> got [] u4 /\ length (bt u3).1 = 3 /\ length (got [] u4) = 5.
Proof. split; [vm_compute; intros H; discriminate H|]. split; by_vm. Qed.

(** C101. Full statement: for all values.  Proved: for values of one type; the next theorems show what happens otherwise. *)
Theorem C101_set_partial :
  forall E O ms T w t L, env_wf E -> obs_wf O -> weakly_ordered O T -> ordered_class ms -> tree_history E O ms T w t L ->
  reachable E w /\ NoDup (inorder t) /\ hold_in_order ms T w (inorder t) L /\ increasing O T L.
Proof. exact ordered_holds. Qed.
Print Assumptions C101_set_partial.
Example C101_ex : env_wf (keyE []) /\ obs_wf obs0 /\ weakly_ordered obs0 1 /\ ordered_class ordk /\ tree_history (keyE []) obs0 ordk 1 x3 t4 [10; 20; 30].
Proof. split; [apply mkE_wf|]. split; [apply obs0_wf|]. split; [apply obs0_ordered|]. split; [apply ordk_class|]. apply t4_history. Qed.
Theorem C101_find_partial :
  forall E O ms T w t L, env_wf E -> obs_wf O -> weakly_ordered O T -> ordered_class ms -> tree_history E O ms T w t L ->
  forall k x, key ms w k (Some (T, x)) ->
  exists y, t_find O t k w = Ok y w /\ (y = None <-> ~ has_equivalent O T L x) /\
    (forall j, y = Some j -> In j (inorder t) /\ exists v, key ms w j (Some (T, v)) /\ equivalent O T x v).
Proof. exact ordered_find. Qed.
Print Assumptions C101_find_partial.
Example C101_ex_find : key ordk x3 7 (Some (1, 20)) /\ got None (t_find obs0 t4 7 x3) = Some 22.
Proof. split; [apply keyb_sound; by_vm|by_vm]. Qed.
Theorem C101_insert_partial :
  forall E O ms T w t L, env_wf E -> obs_wf O -> weakly_ordered O T -> ordered_class ms -> tree_history E O ms T w t L ->
  forall k x n, key ms w k (Some (T, x)) -> w_any w !! n = None ->
  match t_insert E O ms t k n w with
  | Ok (t', b) w' => (b = true <-> ~ has_equivalent O T L x) /\ (b = false -> t' = t /\ w' = w) /\
      (b = true -> exists L', placed O T L x L' /\ hold_in_order ms T w' (inorder t') L' /\ increasing O T L' /\
         exists A B, inorder t = A ++ B /\ inorder t' = A ++ n :: B) /\
      (forall j, j <> n -> view w' j = view w j)
  | Exn w' => ~ has_equivalent O T L x /\ w_any w' !! n = None /\ (forall j, view w' j = view w j)
  | UB _ | Term => False
  end.
Proof. exact ordered_insert. Qed.
Print Assumptions C101_insert_partial.
(** absent; present; the copy throws *)
Example C101_ex_insert : inorder (tt_ t3).1 = [21; 22; 20] /\ (tt_ (t_insert (keyE []) obs0 ordk t4 7 30 x3)).2 = false /\
  match t_insert (keyE [14]) obs0 ordk Leaf 5 20 (kw [14]) with Exn _ => True | _ => False end.
Proof. split; [by_vm|]. split; [by_vm|]. vm_compute. exact I. Qed.
Theorem C101_erase_partial :
  forall E O ms T w t L, env_wf E -> obs_wf O -> weakly_ordered O T -> ordered_class ms -> tree_history E O ms T w t L ->
  forall k x, key ms w k (Some (T, x)) ->
  exists t' b w', t_erase E O t k w = Ok (t', b) w' /\ (b = true <-> has_equivalent O T L x) /\ (b = false -> t' = t /\ w' = w) /\
    (b = true -> forall L', taken O T L x L' -> hold_in_order ms T w' (inorder t') L') /\
    (b = true -> exists j A B, inorder t = A ++ j :: B /\ inorder t' = A ++ B /\ w_any w' !! j = None /\ (forall i, i <> j -> view w' i = view w i)).
Proof. exact ordered_erase. Qed.
Print Assumptions C101_erase_partial.
Example C101_ex_erase : inorder (tt_ (t_erase (keyE []) obs0 t4 7 x3)).1 = [21; 20] /\ (tt_ (t_erase (keyE []) obs0 t4 7 x3)).2 = true.
Proof. split; by_vm. Qed.
(** a value of another type is refused though no member is equal to it *)
Theorem C101_other_types_refuted :
  exists E O ms w t L k v n w', env_wf E /\ obs_wf O /\ (forall T, weakly_ordered O T) /\ ordered_class ms /\
  tree_history E O ms 1 w t L /\ key ms w k v /\ v <> None /\ w_any w !! n = None /\
  (forall j u, In j (inorder t) -> content w j = Some u -> ~ same_value O u v) /\ t_insert E O ms t k n w = Ok (t, false) w'.
Proof. exact types_dropped. Qed.
Print Assumptions C101_other_types_refuted.
(** so < is not a strict weak order of the values *)
Theorem C101_weak_order_refuted :
  exists E O ms w i j k, env_wf E /\ obs_wf O /\ (forall T, weakly_ordered O T) /\ reachable E w /\ ordered_class ms /\
  (forall n, In n [i; j; k] -> exists T x, key ms w n (Some (T, x))) /\
  less O i j w = Ok true w /\ less O i k w = Ok false w /\ less O k i w = Ok false w /\ less O j k w = Ok false w /\ less O k j w = Ok false w.
Proof. exact not_transitive. Qed.
Print Assumptions C101_weak_order_refuted.
(** looking for an empty any, or inserting one, is undefined unless the set is empty *)
Theorem C101_empty_key_undefined :
  forall E O ms T w t L k, env_wf E -> obs_wf O -> weakly_ordered O T -> ordered_class ms -> tree_history E O ms T w t L -> L <> [] -> key ms w k None ->
  t_find O t k w = UB UbNullVtable /\ (forall n, t_insert E O ms t k n w = UB UbNullVtable).
Proof. exact empty_key. Qed.
Print Assumptions C101_empty_key_undefined.
Example C101_ex_empty_key : key ordk x3 9 None /\ t_find obs0 t4 9 x3 = UB UbNullVtable.
Proof. split; [apply keyb_sound; by_vm|by_vm]. Qed.
