(** Property C110: descriptors as keys of std::map and std::unordered_map. *)
From Coq Require Import ZArith String.
From stdpp Require Import gmap list.
From Verif Require Import TypeListModel AnyModel AnyInv AnyHistory AnyFacts AnyExamples PolyModel PolySpec PolyFacts PolyFacts2 PolyExamples DescModel DescSpec DescProofs
  DescExamples DescKeyModel DescKeySpec DescKeyProofs DescKeyTable DescKeyHandlers DescKeyExamples.

(** ** C110 *)
(** whatever the program did, a lookup finds what a map of names has, and no operation is undefined *)
Theorem C110_map_finds :
  forall (X : Type) mem (t : dtree X) m, map_history mem t m -> forall d s, names mem d s -> map_find t d = Some (m !! s).
Proof. exact @map_find_names. Qed.
Print Assumptions C110_map_finds.
Theorem C110_map_goes_on :
  forall (X : Type) mem (t : dtree X) m, map_history mem t m -> forall d s x, names mem d s -> is_Some (map_put t d x) /\ is_Some (map_erase t d).
Proof. exact @map_goes_on. Qed.
Print Assumptions C110_map_goes_on.
(** iteration visits each entry once, in the order of the names *)
Theorem C110_map_iterates :
  forall (X : Type) mem (t : dtree X) m, map_history mem t m -> lists mem (in_order t) m.
Proof. exact @map_iterates. Qed.
Print Assumptions C110_map_iterates.
(** the same for std::unordered_map, for every hash of strings and number of buckets *)
Theorem C110_unordered_map_finds :
  forall (X : Type) mem h cached (t : list (list (nat * descriptor * X))) m, table_history mem h cached t m ->
  forall d s, names mem d s -> table_find h cached t d = Some (m !! s).
Proof. exact @table_find_names. Qed.
Print Assumptions C110_unordered_map_finds.
Theorem C110_unordered_map_goes_on :
  forall (X : Type) mem h cached (t : list (list (nat * descriptor * X))) m, table_history mem h cached t m ->
  forall d s x n, names mem d s -> 0 < n ->
  is_Some (table_put h cached t d x) /\ is_Some (table_erase h cached t d) /\ is_Some (table_rehash h cached t n).
Proof. exact @table_goes_on. Qed.
Print Assumptions C110_unordered_map_goes_on.
Theorem C110_unordered_map_iterates :
  forall (X : Type) mem h cached (t : list (list (nat * descriptor * X))) m, table_history mem h cached t m ->
  lists_unordered mem (map (fun n => (n.1.2, n.2)) (concat t)) m.
Proof. exact @table_iterates. Qed.
Print Assumptions C110_unordered_map_iterates.
(** what one translation unit registers for a type another finds for that type and for no other *)
Theorem C110_registry :
  forall (X : Type) mem cc u v x y d d' s s' (t : dtree X) m val t',
  well_spelled cc u -> well_spelled cc v -> one_string cc u v -> agree cc u v -> distinct cc u v ->
  descriptor_v cc u x = Some d -> descriptor_v cc v y = Some d' -> names mem d s -> names mem d' s' ->
  map_history mem t m -> map_put t d val = Some t' ->
  ((exists e, decays x e /\ decays y e) -> map_find t' d' = Some (Some val)) /\
  (~ (exists e, decays x e /\ decays y e) -> map_find t' d' = map_find t d').
Proof. exact @map_registry. Qed.
Print Assumptions C110_registry.
Theorem C110_unordered_registry :
  forall (X : Type) mem cc h cached u v x y d d' s s' (t : list (list (nat * descriptor * X))) m val t',
  well_spelled cc u -> well_spelled cc v -> one_string cc u v -> agree cc u v -> distinct cc u v ->
  descriptor_v cc u x = Some d -> descriptor_v cc v y = Some d' -> names mem d s -> names mem d' s' ->
  table_history mem h cached t m -> table_put h cached t d val = Some t' ->
  ((exists e, decays x e /\ decays y e) -> table_find h cached t' d' = Some (Some val)) /\
  (~ (exists e, decays x e /\ decays y e) -> table_find h cached t' d' = table_find h cached t d').
Proof. exact @table_registry. Qed.
Print Assumptions C110_unordered_registry.
(** a handler registered for a type is what the type_descriptor of an any finds if its value has that type, and only then;
    handlers registered for void ([T = None]) are for empty anys *)
Theorem C110_handlers_of_anys :
  forall (X : Type) E O w i a mem h cached (t : dtree X) (b : list (list (nat * descriptor * X))) m n T x t' b',
  env_wf E -> obs_wf O -> stored O mem -> reachable E w -> w_any w !! i = Some a -> reports_type (a_ms a) ->
  map_history mem t m -> map_put t (ob_desc O T) x = Some t' -> table_history mem h cached b n -> table_put h cached b (ob_desc O T) x = Some b' ->
  exists c d, content w i = Some c /\ op_desc O (OpAny i) w = Ok d w /\
    (option_map fst c = T -> map_find t' d = Some (Some x) /\ table_find h cached b' d = Some (Some x)) /\
    (option_map fst c <> T -> map_find t' d = map_find t d /\ table_find h cached b' d = table_find h cached b d).
Proof. exact @handlers_any. Qed.
Print Assumptions C110_handlers_of_anys.
(** the same for references and pointers, however they were obtained *)
Theorem C110_handlers_of_views :
  forall (X : Type) E O w o l s s' d c w' mem h cached (t : dtree X) (b : list (list (nat * descriptor * X))) m n T x t' b',
  env_wf E -> obs_wf O -> stored O mem -> reachable E w -> begins w o s d -> chain s l s' ->
  (d = None -> null_safe l) -> fresh_names w (all_names o l) -> reports_type (sty_methods s') -> obtained O w o l c w' ->
  map_history mem t m -> map_put t (ob_desc O T) x = Some t' -> table_history mem h cached b n -> table_put h cached b (ob_desc O T) x = Some b' ->
  exists e, view_desc O c w' = Ok e w' /\
    (option_map fst d = T -> map_find t' e = Some (Some x) /\ table_find h cached b' e = Some (Some x)) /\
    (option_map fst d <> T -> map_find t' e = map_find t e /\ table_find h cached b' e = table_find h cached b e).
Proof. exact @handlers_view. Qed.
Print Assumptions C110_handlers_of_views.

Example C110_ex : map_history reg_mem reg_tree' reg_map /\ names reg_mem (at_ 1) int_name /\ names reg_mem (at_ 3) int_name /\
  at_ 1 <> at_ 3 /\ map (map_find reg_tree') [at_ 1; at_ 2; at_ 3; at_ 4] = [Some (Some 30); Some (Some 20); Some (Some 30); Some None] /\
  map fst (in_order reg_tree') = [at_ 2; at_ 1] /\ map_erase reg_tree' (at_ 3) = Some (DNode DLeaf (at_ 2) 20 DLeaf).
Proof. split; [apply reg_history|]. split; [apply int_1|]. split; [apply int_3|]. split; [discriminate|]. by vm_compute. Qed.
Example C110_ex_unordered : forall c, table_history reg_mem length c [[(4, at_ 1, 30)]; [(5, at_ 2, 20)]] reg_map /\
  table_rehash length c [[(4, at_ 1, 30)]; [(5, at_ 2, 20)]] 3 = Some [[]; [(4, at_ 1, 30)]; [(5, at_ 2, 20)]] /\
  map (table_find length c [[]; [(4, at_ 1, 30)]; [(5, at_ 2, 20)]]) [at_ 1; at_ 2; at_ 3; at_ 4] = [Some (Some 30); Some (Some 20); Some (Some 30); Some None].
Proof. intros c. split; [apply reg_table_history|]. by destruct c; vm_compute. Qed.
(** a const reference in one unit, the type itself in the other; the first unit's literals are elsewhere *)
Example C110_ex_registry : let u := spell_unit "" 1 in let v := spell_unit "" 2 in
  (well_spelled Gcc u /\ well_spelled Gcc v /\ one_string Gcc u v /\ agree Gcc u v /\ distinct Gcc u v) /\
  (forall k x, exists d, descriptor_v Gcc (spell_unit "" k) x = Some d /\ names gcc_mem d (spell (decay x) ++ suffix Gcc)) /\
  u_addr u (CBase 1) <> u_addr v (CBase 1) /\ decays (CRef (CConst (CBase 1))) (CBase 1) /\ map_history gcc_mem (@DLeaf nat) ∅.
Proof.
  cbv zeta. split; [by apply spell_units|]. split; [apply gcc_names|]. split; [|split; [by apply decays_iff|apply map_new]].
  cbn. intros H. apply (inj encode_nat) in H. done.
Qed.
(** any 0 has a value of type 1, any 3 is empty; a const_poly_ref to the value of any 0 *)
Example C110_ex_handlers : env_wf obsE /\ obs_wf obs0 /\ stored obs0 obs_mem /\ reachable obsE obs_w /\
  map_history obs_mem (@DLeaf nat) ∅ /\ map_put DLeaf (ob_desc obs0 (Some 1)) 10 = Some handler_tree /\
  table_history obs_mem length true (replicate 2 (@nil (nat * descriptor * nat))) ∅ /\
  table_put length true (replicate 2 []) (ob_desc obs0 (Some 1)) 10 = Some handler_table /\
  map (fun d => match d with Some d => (map_find handler_tree d, table_find length true handler_table d) | None => (None, None) end)
    [val_of (op_desc obs0 (OpAny 0) obs_w); val_of (op_desc obs0 (OpAny 3) obs_w);
     val_of (viewed (OCAddr 0) [ToCPtr [MMove; MCopy true; MTypeInfo]; Deref; ToCRef [MTypeInfo]] (view_desc obs0) obs_w)] =
    [(Some (Some 10), Some (Some 10)); (Some None, Some None); (Some (Some 10), Some (Some 10))].
Proof.
  split; [apply mkE_wf|]. split; [apply obs0_wf|]. split; [apply obs_stored|]. split; [apply obs_w_reachable|]. split; [apply map_new|]. split; [done|].
  split; [apply (table_new _ _ _ 2); lia|]. split; [done|]. by vm_compute.
Qed.
