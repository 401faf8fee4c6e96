(** Properties C40, C41: type descriptors. *)
From Coq Require Import String ZArith List.
From Verif Require Import DescModel DescSpec DescProofs DescExamples.
Import ListNotations.
Local Open Scope Z_scope.

(** ** C40 *)
(** <=> is the dictionary order of the names *)
Theorem C40_order_of_names :
  forall a b s t, cstring (d_mem a) s -> cstring (d_mem b) t ->
  exists c, desc_cmp a b = Some c /\ (c = Lt <-> before s t) /\ (c = Eq <-> s = t) /\ (c = Gt <-> before t s).
Proof. exact desc_cmp_spec. Qed.
Print Assumptions C40_order_of_names.
(** == (at run time, in constant expressions and in C++17 mode) is equality of the names *)
Theorem C40_equality_of_names :
  forall a b s t, cstring (d_mem a) s -> cstring (d_mem b) t -> same_memory a b ->
  exists e, desc_eq a b = Some e /\ desc_eq_const a b = Some e /\ desc_eq17 a b = Some e /\ (e = true <-> s = t).
Proof. exact desc_eq_spec. Qed.
Print Assumptions C40_equality_of_names.
Theorem C40_equality_iff_order_equal :
  forall a b s t, cstring (d_mem a) s -> cstring (d_mem b) t -> same_memory a b ->
  (desc_eq a b = Some true <-> desc_cmp a b = Some Eq).
Proof. exact eq_iff_cmp. Qed.
Print Assumptions C40_equality_iff_order_equal.
(** <=> orders descriptors totally: reflexive, the two ways of comparing agree, transitive *)
Theorem C40_comparison_is_a_total_order :
  (forall a s, cstring (d_mem a) s -> desc_cmp a a = Some Eq) /\
  (forall a b s t, cstring (d_mem a) s -> cstring (d_mem b) t -> exists c, desc_cmp a b = Some c /\ desc_cmp b a = Some (CompOpp c)) /\
  (forall a b c s t r x, cstring (d_mem a) s -> cstring (d_mem b) t -> cstring (d_mem c) r ->
    desc_cmp a b = Some x -> desc_cmp b c = Some x -> desc_cmp a c = Some x).
Proof. exact desc_order. Qed.
Print Assumptions C40_comparison_is_a_total_order.
(** the dictionary order of the specification is a strict total order *)
Theorem C40_total_order :
  (forall s, ~ before s s) /\
  (forall s t r, ~ In 0 s -> ~ In 0 t -> ~ In 0 r -> before s t -> before t r -> before s r) /\
  (forall s t, ~ In 0 s -> ~ In 0 t -> before s t \/ s = t \/ before t s).
Proof. exact before_order. Qed.
Print Assumptions C40_total_order.
Theorem C40_hash :
  forall h a b s t, cstring (d_mem a) s -> cstring (d_mem b) t -> same_memory a b ->
  desc_hash h a = Some (h s) /\ (desc_eq a b = Some true -> desc_hash h a = desc_hash h b).
Proof. exact desc_hash_spec. Qed.
Print Assumptions C40_hash.

(** names at different addresses, one a prefix of the other; a name with a negative character code *)
Example C40_ex : let a := Desc 1 (lit "int") in let b := Desc 2 (lit "int*" ++ [7]) in let c := Desc 3 (lit "int") in
  cstring (d_mem a) (cs "int") /\ cstring (d_mem b) (cs "int*") /\ same_memory a b /\ same_memory a c /\
  desc_cmp a b = Some Lt /\ desc_eq a b = Some false /\ desc_eq a c = Some true /\
  desc_cmp (Desc 4 [105; -3; 0]) (Desc 5 [105; 0]) = Some Lt.
Proof.
  cbv zeta. split; [exists []; split; [reflexivity|cbn; intuition discriminate]|].
  split; [exists [7]; split; [reflexivity|cbn; intuition discriminate]|]. repeat split; discriminate.
Qed.

(** ** C41 *)
(** Full statement: without the hypotheses that the compiler spells different (decayed) types differently ([distinct]) and
    one type, up to the class key in front, always in the same way ([agree]).  The two descriptors may come from two
    translation units. *)
Theorem C41_descriptors_identify_types_partial :
  forall cc u v x y,
  well_spelled cc u -> well_spelled cc v -> one_string cc u v -> agree cc u v -> distinct cc u v ->
  exists e, both desc_eq (descriptor_v cc u x) (descriptor_v cc v y) = Some e /\ (e = true <-> exists d, decays x d /\ decays y d).
Proof. exact descriptor_identifies. Qed.
Print Assumptions C41_descriptors_identify_types_partial.
(** builds without type names compare addresses of variables, one for each decayed type *)
Theorem C41_descriptors_identify_types_by_address :
  forall addr h x y, (forall x y d e, decays x d -> decays y e -> addr d = addr e -> d = e) ->
  (pdesc_eq (pdescriptor_v addr x) (pdescriptor_v addr y) = true <-> exists d, decays x d /\ decays y d) /\
  (pdesc_cmp (pdescriptor_v addr x) (pdescriptor_v addr y) = Eq <-> exists d, decays x d /\ decays y d) /\
  pdesc_cmp (pdescriptor_v addr y) (pdescriptor_v addr x) = CompOpp (pdesc_cmp (pdescriptor_v addr x) (pdescriptor_v addr y)) /\
  (pdesc_eq (pdescriptor_v addr x) (pdescriptor_v addr y) = true -> pdesc_hash h (pdescriptor_v addr x) = pdesc_hash h (pdescriptor_v addr y)).
Proof. exact pdescriptor_identifies. Qed.
Print Assumptions C41_descriptors_identify_types_by_address.
(** <=> of descriptors from two units, without those hypotheses: consistent with == and with the arguments exchanged *)
Theorem C41_order_of_descriptors :
  forall cc u v x y, well_spelled cc u -> well_spelled cc v -> one_string cc u v ->
  exists o, both desc_cmp (descriptor_v cc u x) (descriptor_v cc v y) = Some o /\
    both desc_cmp (descriptor_v cc v y) (descriptor_v cc u x) = Some (CompOpp o) /\
    (o = Eq <-> both desc_eq (descriptor_v cc u x) (descriptor_v cc v y) = Some true).
Proof. exact descriptor_order. Qed.
Print Assumptions C41_order_of_descriptors.
(** a default constructed descriptor is that of void *)
Theorem C41_default_descriptor_partial :
  forall cc u v void y, decays void void ->
  well_spelled cc u -> well_spelled cc v -> one_string cc u v -> agree cc u v -> distinct cc u v ->
  exists e, both desc_eq (descriptor_default cc u void) (descriptor_v cc v y) = Some e /\ (e = true <-> decays y void).
Proof. exact descriptor_default_void. Qed.
Print Assumptions C41_default_descriptor_partial.
(** types with the same spelling (lambdas of one function, types of unnamed namespaces) are not distinguished *)
Theorem C41_same_spelling_refuted :
  forall cc u v x y d e,
  well_spelled cc u -> well_spelled cc v -> one_string cc u v -> decays x d -> decays y e -> d <> e -> u_name u d = u_name v e ->
  both desc_eq (descriptor_v cc u x) (descriptor_v cc v y) = Some true.
Proof. exact descriptor_ambiguous. Qed.
Print Assumptions C41_same_spelling_refuted.
(** one type spelled with other class keys further inside (vector<class X>, vector<struct X>) has two descriptors *)
Theorem C41_two_spellings_refuted :
  forall cc u v x y d c c',
  well_spelled cc u -> well_spelled cc v -> one_string cc u v -> decays x d -> decays y d ->
  spells cc (u_name u d) c -> spells cc (u_name v d) c' -> c <> c' ->
  both desc_eq (descriptor_v cc u x) (descriptor_v cc v y) = Some false.
Proof. exact descriptor_two_spellings. Qed.
Print Assumptions C41_two_spellings_refuted.

(** a naming that distinguishes all types, with the literals of the two units in different places and a class named with
    either class key by MSVC *)
Example C41_ex : forall cc k1 k2, key_of cc k1 -> key_of cc k2 -> let u := spell_unit k1 1 in let v := spell_unit k2 2 in
  (well_spelled cc u /\ well_spelled cc v /\ one_string cc u v /\ agree cc u v /\ distinct cc u v) /\
  both desc_eq (descriptor_v cc u (CRef (CConst (CBase 1)))) (descriptor_v cc v (CBase 1)) = Some true /\
  both desc_eq (descriptor_v cc u (CRef (CArray (CBase 1) 3))) (descriptor_v cc v (CPtr (CBase 1))) = Some true /\
  both desc_eq (descriptor_v cc u (CPtr (CConst (CBase 1)))) (descriptor_v cc v (CPtr (CBase 1))) = Some false /\
  decays (CRef (CConst (CBase 1))) (CBase 1) /\ decays (CRef (CArray (CBase 1) 3)) (CPtr (CBase 1)).
Proof.
  intros cc k1 k2 K1 K2. split; [now apply spell_units|]. split; [now apply descriptor_ok|]. split; [now apply descriptor_ok|].
  split; [now apply descriptor_differs|]. split; apply decays_iff; reflexivity.
Qed.
Example C41_ex_msvc : key_of Msvc "class " /\ key_of Msvc "struct " /\ u_name (spell_unit "class " 1) (CBase 1) <> u_name (spell_unit "struct " 2) (CBase 1).
Proof. split; [now left|]. split; [now right|]. discriminate. Qed.
Example C41_ex_address : forall x y d e, decays x d -> decays y e -> countable.encode_nat (spell d) = countable.encode_nat (spell e) -> d = e.
Proof. intros x y d e _ _ H. apply spell_inj. now apply (base.inj countable.encode_nat). Qed.
Example C41_ex_lambdas : let u := one_name "main()::<lambda(int)>" 0 in
  well_spelled Gcc u /\ one_string Gcc u u /\ decays (CBase 1) (CBase 1) /\ decays (CBase 2) (CBase 2) /\ CBase 1 <> CBase 2.
Proof.
  cbv zeta. split; [intros d; split; [cbn; intuition discriminate|eexists; constructor]|].
  split; [intros x y c c' _ H1 H2; apply (spells_unique _ _ _ _ H1 H2)|].
  repeat split; [apply decays_iff; reflexivity|apply decays_iff; reflexivity|discriminate].
Qed.
Example C41_ex_inner_key : let u := one_name "class vector<class X>" 0 in let v := one_name "class vector<struct X>" 1 in
  well_spelled Msvc u /\ well_spelled Msvc v /\ one_string Msvc u v /\ decays (CBase 1) (CBase 1) /\
  spells Msvc (u_name u (CBase 1)) (cs "vector<class X>") /\ spells Msvc (u_name v (CBase 1)) (cs "vector<struct X>") /\
  cs "vector<class X>" <> cs "vector<struct X>".
Proof.
  cbv zeta. split; [intros d; split; [cbn; intuition discriminate|exists (cs "vector<class X>"); exact (spells_class (cs "vector<class X>"))]|].
  split; [intros d; split; [cbn; intuition discriminate|exists (cs "vector<struct X>"); exact (spells_class (cs "vector<struct X>"))]|].
  split; [discriminate|]. split; [apply decays_iff; reflexivity|].
  split; [exact (spells_class (cs "vector<class X>"))|]. split; [exact (spells_class (cs "vector<struct X>"))|discriminate].
Qed.
