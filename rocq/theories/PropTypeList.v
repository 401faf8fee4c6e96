(** Properties C32, C34-C39: type lists, interfaces, plugins. *)
From Coq Require Import List Bool Arith.
Import ListNotations.
From Verif Require Import TypeListModel TypeListSpec TypeListProofs.

Example decides_nat : decides Nat.eqb. Proof. exact Nat.eqb_eq. Qed.

(** ** C32 *)
Theorem C32_find_subsequence_is_first_occurrence :
  forall A (eqb : A -> A -> bool), decides eqb -> forall needle hay,
  exists r, find_subsequence eqb needle hay = CtOk r /\
    (forall n, r = Some n <-> first_such (occurs_at needle hay) n) /\
    (r = None <-> ~ contiguous needle hay).
Proof. exact find_subsequence_first. Qed.
Print Assumptions C32_find_subsequence_is_first_occurrence.

Theorem C32_has_subsequence_iff_contiguous :
  forall A (eqb : A -> A -> bool), decides eqb -> forall needle hay,
  has_subsequence eqb needle hay = CtOk true <-> contiguous needle hay.
Proof. exact has_subsequence_iff. Qed.
Print Assumptions C32_has_subsequence_iff_contiguous.

Theorem C32_has_subset_iff_inclusion :
  forall A (eqb : A -> A -> bool), decides eqb -> forall needle hay,
  has_subset eqb needle hay = true <-> incl needle hay.
Proof. exact has_subset_spec. Qed.
Print Assumptions C32_has_subset_iff_inclusion.

Example C32_ex1 : find_subsequence Nat.eqb [2; 3] [1; 2; 4; 2; 3; 2; 3] = CtOk (Some 3).
Proof. reflexivity. Qed.
Example C32_ex2 : find_subsequence Nat.eqb [2; 4] [1; 2; 3; 4] = CtOk None.
Proof. reflexivity. Qed.
Example C32_ex3 : has_subset Nat.eqb [4; 2] [1; 2; 3; 4] = true.
Proof. reflexivity. Qed.

(** ** C34 *)
Theorem C34_flatten_is_inorder_leaves :
  forall A fuel (ts : list (ty A)), max_nesting ts < fuel ->
  insert_flatten fuel ts = Some (flat_map leaves ts).
Proof. exact insert_flatten_spec. Qed.
Print Assumptions C34_flatten_is_inorder_leaves.

(** whatever the instantiation depth limit, a list that is produced is the right one *)
Theorem C34_flatten_sound :
  forall A fuel (ts : list (ty A)) l, insert_flatten fuel ts = Some l -> l = flat_map leaves ts.
Proof. exact insert_flatten_sound. Qed.
Print Assumptions C34_flatten_sound.

(** flattening a flat list changes nothing, and two nestings with the same leaves are the same interface *)
Theorem C34_flatten_idempotent :
  forall A fuel (ts : list (ty A)) l, insert_flatten fuel ts = Some l ->
  insert_flatten fuel (map Leaf l) = Some l.
Proof. exact insert_flatten_idem. Qed.
Print Assumptions C34_flatten_idempotent.

Example C34_ex :
  insert_flatten 5 [Leaf 1; TL [Leaf 2; TL [TL [Leaf 3]; Leaf 4]; TL []]; Leaf 5] = Some [1; 2; 3; 4; 5].
Proof. reflexivity. Qed.

(** ** C35 *)
Theorem C35_without_duplicates :
  forall A (eqb : A -> A -> bool), decides eqb -> forall l,
  let r := without_duplicates eqb l in
  NoDup r /\ (forall x, In x r <-> In x l) /\ sublist r l /\
  (forall x y, In x l -> In y l -> x <> y -> (before x y r <-> before x y l)).
Proof. exact without_duplicates_all. Qed.
Print Assumptions C35_without_duplicates.
Example C35_ex : without_duplicates Nat.eqb [3; 1; 3; 2; 1] = [3; 1; 2].
Proof. reflexivity. Qed.

(** ** C36 *)
Theorem C36_filtered_by :
  forall A (pred : A -> bool) l, filtered_by pred l = filter pred l.
Proof. exact filter_types_spec. Qed.
Print Assumptions C36_filtered_by.
Example C36_ex : filtered_by Nat.even [1; 2; 3; 4; 4] = [2; 4; 4].
Proof. reflexivity. Qed.

(** ** C37 *)
Theorem C37_append_concatenates :
  forall A fuel (ms : list A) ts, max_nesting ts < fuel ->
  rc_append fuel ms ts = Some (ms ++ flat_map leaves ts).
Proof. exact rc_append_spec. Qed.
Print Assumptions C37_append_concatenates.

Theorem C37_equivalent_to_is_equality :
  forall A (eqb : A -> A -> bool), decides eqb -> forall fuel ms ts, max_nesting ts < fuel ->
  exists b, rc_equivalent_to eqb fuel ms ts = Some b /\ (b = true <-> ms = flat_map leaves ts).
Proof. exact rc_equivalent_spec. Qed.
Print Assumptions C37_equivalent_to_is_equality.

Theorem C37_subsumes_is_contiguous :
  forall A (eqb : A -> A -> bool), decides eqb -> forall fuel ms ts, max_nesting ts < fuel ->
  exists b, rc_subsumes eqb fuel ms ts = Some (CtOk b) /\
            (b = true <-> contiguous (flat_map leaves ts) ms).
Proof. exact rc_subsumes_spec. Qed.
Print Assumptions C37_subsumes_is_contiguous.

(** the subsumption order on interfaces given by their (simple) methods *)
Definition subsumes {A} (eqb : A -> A -> bool) (a b : list A) : Prop :=
  rc_subsumes eqb 1 a (map Leaf b) = Some (CtOk true).

Theorem C37_subsumption_order :
  forall A (eqb : A -> A -> bool), decides eqb ->
  (forall a, subsumes eqb a a) /\
  (forall a b c, subsumes eqb a b -> subsumes eqb b c -> subsumes eqb a c) /\
  (forall a b, subsumes eqb a b -> subsumes eqb b a -> a = b) /\
  (forall a b, exists c, rc_append 1 a (map Leaf b) = Some c /\ subsumes eqb c a /\ subsumes eqb c b).
Proof. exact subsumption_order. Qed.
Print Assumptions C37_subsumption_order.
Example C37_ex : subsumes Nat.eqb [1; 2; 3] [2; 3] /\ ~ subsumes Nat.eqb [1; 2; 3] [1; 3].
Proof. split; [reflexivity|discriminate]. Qed.

(** ** C38 *)
Theorem C38_any_with_destroy_and_interface_of :
  forall A (eqb : A -> A -> bool), decides eqb -> forall destroy fuel ts, max_nesting ts < fuel ->
  exists used, any_with eqb destroy fuel ts = Some used /\
    In destroy used /\ contiguous (flat_map leaves ts) used /\
    get_interface_of eqb destroy used = flat_map leaves ts /\
    length used <= S (length (flat_map leaves ts)).
Proof. exact any_with_spec. Qed.
Print Assumptions C38_any_with_destroy_and_interface_of.
Example C38_ex1 : any_with Nat.eqb 0 3 [Leaf 7; TL [Leaf 8]] = Some [0; 7; 8].
Proof. reflexivity. Qed.
Example C38_ex2 : any_with Nat.eqb 0 3 [Leaf 0; Leaf 7] = Some [0; 0; 7].
Proof. reflexivity. Qed.
Example C38_ex3 : any_with Nat.eqb 0 3 [Leaf 7; Leaf 0] = Some [7; 0].
Proof. reflexivity. Qed.

(** ** C39 *)
Theorem C39_plugins_inherited_once :
  forall P (base_of : P -> P -> bool),
  (forall x, base_of x x = true) ->
  (forall x y z, base_of x y = true -> base_of y z = true -> base_of x z = true) ->
  forall plugins,
  let R := construct_interface base_of plugins in
  NoDup R /\
  (* no inherited plugin is a base of another inherited one *)
  (forall l1 x l2, R = l1 ++ x :: l2 -> forall y, In y (l1 ++ l2) -> base_of x y = false) /\
  (* only requested plugins are inherited *)
  (forall x, In x R -> In (Some x) plugins) /\
  (* every requested plugin is inherited, directly or through a plugin derived from it *)
  (forall x, In (Some x) plugins -> exists r, In r R /\ base_of x r = true).
Proof. exact construct_interface_spec. Qed.
Print Assumptions C39_plugins_inherited_once.
(** divisibility as a stand-in for "is base of": 2 is a base of 4 and 6, 3 of 6 *)
Example C39_ex : construct_interface (fun b d => d mod b =? 0) [Some 4; None; Some 2; Some 6; Some 3; Some 4] = [6; 4].
Proof. reflexivity. Qed.
