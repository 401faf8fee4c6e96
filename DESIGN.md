# Formal model of AnyAny

The C++ library is read as text.  A hand-written Gallina model mirrors the functions listed below; each definition
carries a comment citing the file and lines it models.  Properties are stated over that model, with the vocabulary of
small separate specification files (`*Spec.v`), and proved for all inputs, states and histories.

## Layout of `rocq/theories`

* `*Model.v`: the model.  Total, computable functions.
* `*Spec.v`: what is expected, without reference to the model's helpers (`AnyHistory.v`, `AnyLogSpec.v` for any_with).
* `Prop*.v`: the property theorems, each closed by `exact`, with `Print Assumptions` and an `Example` of a non-trivial
  case meeting its hypotheses.  `*Examples.v` define the programs used there.
* everything else: lemmas.

## Trusted base

* The kernel of Coq 8.16.1 (its `vm_compute` included: the witnesses of refutations and the examples use it).
* `Print Assumptions` beneath each of the 469 property theorems prints "Closed under the global context": no axiom is used, neither
  of the standard library nor of any other.  (`coqchk -o` lists the `Coq.ssr.ssrunder.Under_rel` axioms because
  std++ loads ssreflect; no theorem depends on them.)
* The model's faithfulness to the C++ text, as described here and in the comments.
* The statements in `Prop*.v` and the definitions of `*Spec.v` they use.

## Modelling choices

* Outcomes: `Ok`, `Exn` (an exception leaves the function), `UB` (undefined behaviour or a failed `assert`, with a
  reason), `Term` (std::terminate: an exception leaves a noexcept function).  A template that cannot be instantiated is
  `CtErr`, `None` or `UB UbIllFormed`.
* Exceptions: each allocation and each constructor that is not declared noexcept asks an arbitrary oracle, so a theorem
  about all oracles is a theorem about every pattern of failures.
* Types are numbers with an arbitrary environment: size, alignment, nothrow move/copy, trivial copy/destroy, methods,
  `==`, `<=>`, hash, name spelled by the compiler.  A value is a number; copies and moves keep it.
* Memory: places are symbolic, the buffer of an any or a heap block (size, allocator); identifiers are not
  reused; a place holds at most one object.  Wrong size or allocator on deallocation, use of a dead object, wrong type,
  a null or dangling vtable pointer are each a distinct `UB`.
* Allocators are numbers with arbitrary `is_always_equal`, propagation traits and
  `select_on_container_copy_construction`.
* Vtables are arrays of slots, vtable pointers are (array, offset, home of a stateful table); `VtableModel.v`
  separately models the byte layout behind `subtable_ptr`.
* Type lists and the `consteval` functions on them are list functions.
* `std::vector`, `std::set`, `std::unique_ptr`, `std::variant`, `std::optional`, `std::sort`, `std::lower_bound` are
  modelled from the standard, not from an implementation; class layout (C93) from the Itanium C++ ABI.
* `assert` is on unless a model says otherwise: a failed assertion is `UB UbAssert`.

## Which code is modelled

Line ranges cited by definitions of the model (`/repo/include/anyany`):

* `anyany.hpp` (`AnyModel.v`, `ArrangeModel.v`, `AtomicModel.v`, `CallModel.v`, `CastModel.v`, `ConsModel.v`, `InnerModel.v`, `KeyModel.v`, `LayoutModel.v`, `MethodModel.v`, `NestModel.v`, `NoexceptModel.v`, `NormModel.v`, `PolyModel.v`, `RebindModel.v`, `RefConsModel.v`, `StdModel.v`, `StructModel.v`, `TypeListModel.v`, `UniqueModel.v`, `UsesModel.v`, `VtableModel.v`): 26-38, 48-49, 56-57, 59-66, 71-79, 81-85, 87-88, 90-104, 106-107, 119-120, 131-139, 141-144, 151-168, 171-172, 174-193, 195-209, 211, 216-228, 232-253, 255-269, 271, 277-341, 344-350, 366-385, 387-403, 417-442, 452-458, 488-496, 512-524, 526-528, 532-559, 565-567, 577-586, 588-595, 597-602, 614, 623-630, 632-646, 651-652, 655-734, 737-827, 829-830, 832-845, 849-855, 863-1005, 1013-1075, 1081-1083, 1108-1122, 1128-1148, 1158-1161, 1164-1165, 1167, 1169-1170, 1183-1188, 1190-1194, 1198-1268, 1271-1275, 1280-1322, 1326-1348, 1352-1372, 1375-1388, 1390-1403, 1414-1416, 1418, 1424-1428, 1430-1436, 1438-1454, 1456-1462, 1465-1496, 1498, 1502-1507, 1512-1527, 1546-1561, 1577, 1579-1601, 1603-1620, 1629-1640, 1642-1670, 1680-1687, 1696-1716, 1724-1731, 1733-1737, 1759-1781, 1784-1826, 1830-1873, 1877-1918, 1926-1950, 1957-1958, 1963-1966, 1973-1976, 1979-2025
* `noexport/anyany_details.hpp` (`AnyModel.v`, `CallModel.v`, `ConsModel.v`, `LayoutModel.v`, `MethodModel.v`, `NormModel.v`, `TypeListModel.v`, `UniqueModel.v`, `VtableModel.v`): 30-63, 66-77, 80-81, 83-84, 86-88, 92-123, 126-138, 142-151, 155-169, 178-181, 186-200, 202-207, 209-212, 214-220, 222-223, 227-316, 318-322, 324-327, 335-343, 345-356, 361-364, 375-386, 388-391, 397-403, 408-410, 417-434
* `type_descriptor.hpp` (`ConsModel.v`, `DescKeyModel.v`, `DescModel.v`, `VisitModel.v`): 25-37, 40-63, 71-72, 88-90, 96-102, 108-120, 127-136
* `noexport/type_descriptor_details.hpp` (`DescModel.v`): 12-14, 16-20, 22-30, 33-57
* `visit_invoke.hpp` (`VisitCostModel.v`, `VisitModel.v`): 37-38, 52-104, 106-116, 118-123, 126-131, 137-158
* `noexport/visit_invoke_details.hpp` (`VisitCostModel.v`, `VisitModel.v`): 13-17, 39-79
* `utility.hpp` (`CastModel.v`, `OverloadModel.v`, `SwitchModel.v`, `VisitorModel.v`): 31-34, 36-75, 101-108, 113-148, 157-172, 183-188, 193-200, 202-207, 210-212, 219-225, 230-237, 239-245, 248-262
* `data_parallel_vector.hpp` (`BindModel.v`, `CapModel.v`, `DpvAllocModel.v`, `DpvExprModel.v`, `DpvIterModel.v`, `DpvModel.v`, `MoveModel.v`): 34-35, 47-55, 62, 66-228, 233-240, 243, 249-251, 256-351, 360, 362-388, 392-395, 398-401, 408-425, 429-450, 454-460, 462-523, 525-532, 537-541, 545-552, 557-564, 568-574, 578-588, 592-599, 601-608, 610-633, 641-652, 656-673, 688-691, 701, 703-708, 710-715, 730-732, 734-743, 745-762, 766-767, 769-770
* `noexport/data_parallel_vector_details.hpp` (`BindModel.v`, `DpvModel.v`, `FieldsModel.v`): 9-41, 43-53, 57-222, 225-231, 250-276, 278-322
* `variant_swarm.hpp` (`InserterModel.v`, `SwarmModel.v`): 45, 56-72, 78-89, 93-115, 117-132, 136-159, 161-183, 187-233, 244-249
* `noexport/variant_swarm_details.hpp` (`OverloadModel.v`, `SwarmModel.v`): 15-56, 58-63, 66-70
* `anyany_macro.hpp` (`CallModel.v`, `MacroModel.v`): 22-40, 81-116, 119-129, 131-143, 152

### Not modelled

* the macros in `noexport/file_begin.hpp`, `file_end.hpp` (what differs between C++17 and C++20 is in C40, C72 and C105; otherwise the models are of C++20); the preprocessor of MSVC in its traditional mode; code under `_MSC_VER` other than
  the type name extraction; the branches for builds without exceptions.
* Overload resolution, SFINAE and concepts as such, except among the constructors and assignments of `basic_any` (C75, C76, C105), the
  constructors of references and pointers (C87-C89), their assignments (C73), `poly_ptr` comparisons (C72), the recognition of methods (C77-C79),
  the expressions on `data_parallel_vector` (C82), the calls of erased visitors (C84, C85) and insertion into swarms (C86): where a constraint decides whether a call compiles and a
  property depends on it, the constraint is a function of the model; otherwise programs are assumed to compile.
* `mate` (A 465-510: plain field access), type aliases.
* constexpr evaluation, fancy pointers, volatile, real addresses (offsets inside anys and views are in C93), threads and the memory model (C90, C94 and C108 are about what operations write and about interleavings of whole operations).

Simplifications made inside a modelled function are stated in the comment at its definition.

## Properties

Status `partial`: the statement as given in `properties.jsonl` is false for the code or true only under the named
conditions.  Then `_partial` theorems prove it under the weakest condition found and `_refuted` theorems
give a witness outside.

### C01 Any history of any_with operations is memory safe

*Model and method*: AnyModel.v (world, every basic_any member function) / AnyInv.v invariant; induction over histories, Hoare lemmas per function.
*Status*: proved, `PropAnySafety.v`: `C01_no_undefined_behaviour`, `C01_terminates_only_in_force_stable`.

### C02 No memory is leaked and every block is freed once with its own size

*Model and method*: allocation log in the world; log/heap consistency preserved by every primitive + ownership invariant.
*Status*: proved, `PropAnySafety.v`: `C02_outstanding_blocks_have_one_owner`, `C02_nothing_left_when_all_destroyed`, `C02_every_program_is_covered`.

### C03 Every contained object is destroyed exactly once

*Model and method*: construction/destruction log with unique object ids; preserved by every primitive + ownership invariant.
*Status*: proved, `PropAnySafety.v`: `C03_constructed_is_destroyed_or_held`, `C03_each_object_destroyed_once`, `C03_all_destroyed_in_the_end`.

### C04 Copy construction yields an equal independent value

*Model and method*: copy_ctor; refinement to an abstract map id -> option (type,value).
*Status*: proved, `PropAnyValues.v`: `C04_copy_is_equal_and_elsewhere`, `C04_copy_is_independent`.

### C05 Move transfers the value and empties the source

*Model and method*: move_ctor, move_assign; refinement.
*Status*: proved, `PropAnyValues.v`: `C05_move_construction`, `C05_move_assignment`, `C05_old_value_is_destroyed`, `C05_swap_exchanges`.
*Note*: An any without buffer (SooS == 0) is movable without `move` or copy_with (A 1165); but where allocators neither are always equal nor propagate, the body of its move assignment names get_move_fn (A 1240) and does not compile although the operator is declared: excluded by has_move_assign.

### C06 Copy assignment yields an equal value

*Model and method*: copy_assign; refinement.
*Status*: proved, `PropAnyValues.v`: `C06_copy_assignment`.

### C07 Constructors give the strong exception guarantee

*Model and method*: exception oracle (every allocation / throwing constructor may throw); Exn outcome of constructor operations leaves the world's objects and heap equal.
*Status*: proved, `PropAnyExc.v`: `C07_constructors_strong_guarantee`.

### C08 Copy/move assignment gives the strong exception guarantee

*Model and method*: as C07 for assignments; proved for interchangeable or move-propagating allocators, refuted (witness) for non-propagating unequal ones.
*Status*: partial, `PropAnyExc.v`: `C08_assignment_strong_guarantee_partial`, `C08_copy_assignment_compatible_partial`, `C08_copy_assignment_loses_value_refuted`, `C08_move_assignment_loses_value_refuted`, `C08_assignment_terminates_refuted`.
*Note*: Proved for always-equal or move-propagating allocators, and for every allocator when the temporary's memory can be taken over; refuted for unequal non-propagating allocators (old value lost, or std::terminate).

### C09 emplace: value on success, empty on failure

*Model and method*: emplace_decayed.
*Status*: proved, `PropAnyValues.v`: `C09_emplace`, `C09_old_value_destroyed_others_kept`, `C09_construction`, `C09_usable_after_exception`.

### C10 reset and destroy_value postconditions

*Model and method*: reset, destroy_value.
*Status*: proved, `PropAnyValues.v`: `C10_reset`, `C10_reset_idempotent`, `C10_destroy_value`, `C10_destroy_value_idempotent`.

### C11 replace_with_bytes guarantees capacity

*Model and method*: replace_with_bytes, capacity.
*Status*: proved, `PropAnyValues.v`: `C11_replace_with_bytes`, `C11_then_emplace_does_not_allocate`.

### C12 sizeof_now bounds the value size

*Model and method*: sizeof_now.
*Status*: proved, `PropAnyValues.v`: `C12_sizeof_now`, `C12_capacity`.

### C13 Pointers to heap values survive moves

*Model and method*: pointers are (place) values; move construct/assign keep the place of a heap value.
*Status*: partial, `PropAnyPlace.v`: `C13_stable_means_heap`, `C13_move_construction_keeps_address`, `C13_move_assignment_keeps_address_partial`, `C13_move_assignment_moves_value_refuted`, `C13_no_buffer_means_stable`, `C13_forced_means_stable`, `C13_is_stable_pointers_iff_owns_memory`.
*Note*: Proved for move construction with every allocator and for move assignment with always-equal or propagating allocators; refuted for unequal non-propagating ones.

### C14 Moves never throw or terminate

*Model and method*: move paths never consult the oracle; noexcept wrapper turns an escaping exception into Terminate.
*Status*: proved, `PropAnyExc.v`: `C14_move_assignment_never_throws`, `C14_move_construction_never_throws`, `C14_converting_move_never_throws`.

### C15 Small values never allocate

*Model and method*: no allocation event in the log for fitting types; and placement invariant.
*Status*: partial, `PropAnyPlace.v`: `C15_construction_placement`, `C15_copy_placement`, `C15_small_copy_cannot_run_out_of_memory`, `C15_move_assignment_partial`, `C15_small_heap_value_allocates_refuted`, `C15_only_small_values_in_buffers`.
*Note*: Proved for construction, copy, move construction and move assignment of values in the buffer; refuted for small values kept on the heap by force_stable_pointers when allocators are unequal and do not propagate.

### C16 Stateful allocators: memory is returned to the allocator it came from

*Model and method*: deallocate primitive is UB when the allocator differs from the allocating one; full allocator traits in the configuration; refuted for SooS==0 non-propagating.
*Status*: partial, `PropAnyAlloc.v`: `C16_with_buffer_partial`, `C16_compatible_programs_partial`, `C16_no_buffer_wrong_allocator_refuted`, `C16_no_buffer_copy_assignment_refuted`.
*Note*: Proved for SooS != 0 without converting moves, and for all programs that never take over memory of an unequal allocator; refuted for SooS == 0 and for converting moves.

### C17 Conversion to an any with fewer methods keeps the value and its behaviour

*Model and method*: trans_copy_ctor, trans_move_ctor, subtable; allocator part refuted for stateful allocators.
*Status*: partial, `PropAnyAlloc.v`: `C17_converting_copy`, `C17_converting_move_partial`, `C17_converting_move_wrong_allocator_refuted`.
*Note*: Copy conversion proved; move conversion proved when the default-constructed allocator equals the source's; refuted otherwise.

### C18 materialize creates an owning copy of the referenced value

*Model and method*: materialize; success part proved, exception part and lifetime part refuted by witnesses.
*Status*: partial, `PropAnyRefs.v`: `C18_materialize_partial`, `C18_throwing_copy_refuted`, `C18_bad_alloc_refuted`, `C18_stateful_allocator_refuted`, `C18_result_dangles_refuted`.
*Note*: Proved for allocators without state when the copy cannot throw (or the type's destructor is trivial) and the reference outlives the result; refuted for throwing copies, failing allocation, stateful references that die first, and allocators with state (materialize passes the allocator instead of its address: does not compile).

### C19 force_stable_pointers constructor reports allocation failure as an exception

*Model and method*: noexcept specification of the force-stable constructors modelled; refuted by witness, proved for the complement.
*Status*: partial, `PropAnyExc.v`: `C19_force_stable_pointers_partial`, `C19_allocation_failure_terminates_refuted`.
*Note*: Outcomes characterised for all inputs; refuted: std::terminate when allocation fails for small nothrow types.

### C20 Contained objects are suitably aligned

*Model and method*: alignment of a place part of the construct primitive; proved for types with alignment <= max_align, refuted otherwise.
*Status*: partial, `PropAnyPlace.v`: `C20_contained_objects_aligned_partial`, `C20_buffer_never_misaligned`, `C20_over_aligned_misplaced_refuted`.
*Note*: Holds for types not over-aligned and for everything in a buffer; refuted for every over-aligned type.

### C21 Assigning from a reference to a contained value

*Model and method*: constructor argument may be a reference to a place; self-reference refuted, others proved.
*Status*: partial, `PropAnyRefs.v`: `C21_emplace_from_other_partial`, `C21_emplace_from_self_refuted`.
*Note*: Proved for values of other objects; refuted for a reference into the object itself.

### C22 Operations affect only the named objects

*Model and method*: frame part of every function lemma.
*Status*: proved, `PropAnySafety.v`: `C22_other_objects_unchanged`, `C22_programs_touch_only_what_they_name`.

### C23 any_cast succeeds exactly on the dynamic type

*Model and method*: any_cast on any/poly_ptr over descriptor slots.
*Status*: proved, `PropPoly.v`: `C23_any_cast`, `C23_any_cast_of_views`.
*Note*: Assumes distinct types have distinct compiler spellings (C41).

### C24 operator== with equal_to

*Model and method*: any_eq.
*Status*: proved, `PropPoly.v`: `C24_equal_to`, `C24_laws`, `C24_equal_to_of_references`.
*Note*: Assumes distinct types have distinct compiler spellings (C41).

### C25 operator<=> with spaceship

*Model and method*: any_cmp; refuted for (value, empty).
*Status*: partial, `PropPoly.v`: `C25_spaceship_partial`, `C25_spaceship_of_references`, `C25_empty_on_the_right_undefined`, `C25_defined_for_all_pairs_refuted`.
*Note*: Proved for references and for anys unless the left has a value and the right is empty; that case is refuted (undefined behaviour: the vtable of the empty any is read).

### C26 std::hash of any_with

*Model and method*: any_hash.
*Status*: proved, `PropPoly.v`: `C26_hash`, `C26_hash_of_references`, `C26_equal_values_hash_equal`, `C26_equivalent_values_hash_equal`.

### C27 type_descriptor reports the dynamic type

*Model and method*: any_type_desc.
*Status*: proved, `PropPoly.v`: `C27_type_descriptor_of_any`, `C27_type_descriptor_of_views`.

### C28 poly_ptr/poly_ref denote the contained value

*Model and method*: addr_of (operator&), poly_ptr equality, hash.
*Status*: proved, `PropPoly.v`: `C28_address_of_any`, `C28_address_of_const_any`, `C28_dereferenced_pointer_acts_on_the_value`, `C28_pointer_equality`.

### C29 Method dispatch is preserved by every chain of interface conversions

*Model and method*: vtables as slot arrays with offset pointers; induction over a chain of conversions.
*Status*: proved, `PropPoly.v`: `C29_dispatch_through_conversions`, `C29_dispatch_on_any_content`.

### C30 A sub-vtable view reads the right bytes

*Model and method*: VtableModel.v: byte offsets of tuple members under natural alignment; proved for uniform slots, refuted in general.
*Status*: partial, `PropVtable.v`: `C30_view_reads_right_entry_partial`, `C30_uniform_alignment_partial`, `C30_library_methods_partial`, `C30_mixed_sizes_refuted`.
*Note*: Proved when the start of the view is aligned for all entries of the view, in particular when all entries have the same size and alignment or are the library's own methods; refuted for lists mixing empty visitor vtables with larger entries.

### C31 stateful references pick methods by identity, not position

*Model and method*: stateful tables built by name.
*Status*: proved, `PropPoly.v`: `C31_stateful_reference`.

### C32 Interface inclusion test is exactly contiguous inclusion

*Model and method*: TypeListModel.v find_subsequence.
*Status*: proved, `PropTypeList.v`: `C32_find_subsequence_is_first_occurrence`, `C32_has_subsequence_iff_contiguous`, `C32_has_subset_iff_inclusion`.

### C33 vtable::change replaces all and only the entries of the method

*Model and method*: VtableModel.v change.
*Status*: proved, `PropVtable.v`: `C33_change_all_and_only`, `C33_invoke_after_change`.

### C34 Interface aliases flatten to the in-order list of simple methods

*Model and method*: TypeListModel.v flatten.
*Status*: proved, `PropTypeList.v`: `C34_flatten_is_inorder_leaves`, `C34_flatten_sound`, `C34_flatten_idempotent`.

### C35 without_duplicates keeps first occurrences

*Model and method*: remove_duplicates.
*Status*: proved, `PropTypeList.v`: `C35_without_duplicates`.

### C36 filtered_by keeps exactly the matching methods in order

*Model and method*: filter_types.
*Status*: proved, `PropTypeList.v`: `C36_filtered_by`.

### C37 runtime_concept algebra

*Model and method*: subsumes/append/equivalent_to.
*Status*: proved, `PropTypeList.v`: `C37_append_concatenates`, `C37_equivalent_to_is_equality`, `C37_subsumes_is_contiguous`, `C37_subsumption_order`.

### C38 any_with always has a destructor and interface_of recovers the user's methods

*Model and method*: insert_into_basic_any / interface_of.
*Status*: proved, `PropTypeList.v`: `C38_any_with_destroy_and_interface_of`.

### C39 Plugins are inherited once and overridden ones are dropped

*Model and method*: inherit_without_duplicates over an abstract partial order is_base_of.
*Status*: proved, `PropTypeList.v`: `C39_plugins_inherited_once`.

### C40 Descriptor comparison is a total order on type names

*Model and method*: DescModel.v strcmp on byte strings.
*Status*: proved, `PropDesc.v`: `C40_order_of_names`, `C40_equality_of_names`, `C40_equality_iff_order_equal`, `C40_comparison_is_a_total_order`, `C40_total_order`, `C40_hash`.

### C41 Descriptors identify types

*Model and method*: `DescModel.descriptor_v` for each compiler: the literal the compiler is assumed to produce, the prefix skipped by `n<T>()`, the class key stripped for MSVC; spelling and place of the literal are parameters of each translation unit. `DescSpec.decays` is std::decay_t as a relation.
*Status*: partial, `PropDesc.v`: `C41_descriptors_identify_types_partial`, `C41_descriptors_identify_types_by_address`, `C41_order_of_descriptors`, `C41_default_descriptor_partial`, `C41_same_spelling_refuted`, `C41_two_spellings_refuted`.
*Note*: Proved, for gcc, clang and MSVC and descriptors from two translation units, for types the compiler spells differently and consistently up to the class key in front; refuted when two types are spelled alike or one type is spelled in two ways further inside. Without type names (ANYANY_ASSUME_NO_DLLS) proved in full.

### C42 visit_invoke resolves exactly the overload for the dynamic types

*Model and method*: VisitModel.v flat_map sort + lower_bound; refinement to 'find the overload'.
*Status*: partial, `PropVisit.v`: `C42_runs_the_matching_overload_partial`, `C42_nullopt_when_none_matches_partial`, `C42_order_of_overloads_is_irrelevant`, `C42_function_pointer_overload_refuted`, `C42_duplicate_signatures_do_not_compile`.
*Note*: Proved for captureless lambdas, every overload set, and independence of the listing order; refuted for function pointers (Foo{} is a null pointer).

### C43 visit_invoke picks only overloads of the call's arity

*Model and method*: refuted: missing arguments are padded with the void descriptor, same as empties.
*Status*: partial, `PropVisit.v`: `C43_only_overloads_of_the_arity_partial`, `C43_trailing_empty_argument_refuted`, `C43_ill_called_does_not_compile`.
*Note*: Proved whenever the last argument is not empty/null; refuted for a trailing empty argument, which is indistinguishable from a missing one.

### C44 visit_invoke const checking

*Model and method*: const check.
*Status*: proved, `PropVisit.v`: `C44_no_const_violation`, `C44_nullopt_on_const_mismatch`, `C44_never_rejects_a_const_correct_call`.
*Note*: Proved for every overload set, constness pattern and argument state; the default Unsafe=true mode asserts instead.

### C45 visit_invoke does not modify const arguments

*Model and method*: by-value parameter moves from argument: refuted; const& proved.
*Status*: partial, `PropVisit.v`: `C45_const_arguments_keep_their_value_partial`, `C45_by_value_parameter_moves_from_const_refuted`.
*Note*: Proved when bodies respect const and moving from by-value parameters' types changes nothing; refuted for by-value parameters in general: the const argument is moved from.

### C46 type_switch selects the first matching case and runs at most one

*Model and method*: SwitchModel.v chain interpreter.
*Status*: partial, `PropSwitch.v`: `C46_runs_first_matching_case_partial`, `C46_default_when_no_case_matches_partial`, `C46_void_default_refuted`, `C46_empty_subject_asserts`, `C46_empty_any_refuted`.
*Note*: Proved for subjects that hold a value: the first matching case runs once, otherwise the default. Refuted: a void switch with a default does not compile, and an empty subject runs into an assertion instead of the default. type_switch on a poly_ptr does not compile.

### C47 variant_swarm behaves as a sequence of variants grouped by type

*Model and method*: SwarmModel.v.
*Status*: proved, `PropSwarm.v`: `C47_sequence_of_variants`, `C47_other_types_unchanged`, `C47_emplace_result`, `C47_range_insert_ill_formed`.
*Note*: For containers with push_back (vector, list) and for std::set. The overload insert(first, last) cannot be compiled for any type, so no history contains it (C47_range_insert_ill_formed).

### C48 variant_swarm size/empty/count agree

*Model and method*: SwarmModel.v.
*Status*: proved, `PropSwarm.v`: `C48_sizes_agree`.

### C49 variant_swarm visit order and output

*Model and method*: SwarmModel.v.
*Status*: proved, `PropSwarm.v`: `C49_visit_order`, `C49_visit_all_once`, `C49_visit_copy`.

### C50 data_parallel_vector behaves as vector<T>

*Model and method*: DpvModel.v columns model refined to list of rows.
*Status*: partial, `PropDpv.v`: `C50_behaves_as_vector_partial`, `C50_erase_range_ill_formed`.
*Note*: Proved for all histories of the listed statements, with returned iterators; missing are ranges read through move_iterator not at the end (C52) and erase(b, e), which cannot be compiled (C50_erase_range_ill_formed).

### C51 All field columns have the same length

*Model and method*: DpvModel.v.
*Status*: proved, `PropDpv.v`: `C51_columns_have_one_length`.
*Note*: For all histories, moving ranges included.

### C52 data_parallel_vector range insertion

*Model and method*: DpvModel.v both code paths.
*Status*: partial, `PropDpv.v`: `C52_range_insert_partial`, `C52_moving_range_refuted`, `C52_moving_range_first_row`.
*Note*: Proved for both code paths unless the range moves and pos is not the end; refuted there: the first value is moved from once per field. The exact result is C52_moving_range_first_row.

### C53 Element comparison is lexicographic by fields

*Model and method*: DpvModel.v.
*Status*: partial, `PropDpv.v`: `C53_compares_first_unequal_field`, `C53_equality_of_fields_partial`, `C53_equality_refuted`, `C53_vector_equality`.
*Note*: Lexicographic comparison and vector == proved; == of elements equals the fields' == only where that agrees with <=>, refuted otherwise, because == is computed from <=>.

### C54 Iterator arithmetic laws

*Model and method*: DpvModel.v iterator positions in Z mod 2^64.
*Status*: partial, `PropDpv.v`: `C54_add_and_difference`, `C54_add_then_subtract_partial`, `C54_subtract_negative_refuted`, `C54_order_agrees_with_difference`, `C54_increment_decrement`, `C54_subscript`, `C54_begin_and_end`.
*Note*: All laws proved except it + n - n with negative n when assert is enabled: operator-= compares dif with the index as unsigned and aborts; refuted there for every negative n.

### C55 data_parallel_vector exception safety of growth

*Model and method*: refuted by witness, no-throw part proved.
*Status*: partial, `PropDpv.v`: `C55_growth_refuted`, `C55_exceptions_partial`.
*Note*: Refuted for every vector with two or more fields: an exception after the first column leaves columns of different lengths. Proved: exceptions of the first column, one field, statements that build a temporary or keep the size.

### C56 Element swap and assignment through proxies

*Model and method*: DpvModel.v.
*Status*: proved, `PropDpv.v`: `C56_swap_rows`, `C56_assign_row`.

### C57 unique_ptr to an interface deletes the object once with its own type

*Model and method*: UniqueModel.v.
*Status*: proved, `PropUnique.v`: `C57_no_undefined_behaviour`, `C57_deleted_once_with_own_type`, `C57_everything_deleted`.
*Note*: std::unique_ptr itself is modelled from the standard; conversions go through release(), because the default_delete types are not convertible to each other.

### C58 Erased visitors call the overload for the static type

*Model and method*: VisitorModel.v.
*Status*: proved, `PropVisitor.v`: `C58_visit_one`, `C58_visit_two`, `C58_visit_through_views`, `C58_interfaces`.

### C59 const_poly_ptr can be made from a pointer to const any with fewer methods

*Model and method*: const_poly_ptr constructor, constraint modelled as written.
*Status*: partial, `PropPoly.v`: `C59_const_pointer_from_const_any_partial`, `C59_fewer_methods_rejected_refuted`, `C59_every_strict_part_rejected`.
*Note*: Holds only for the identical list; refuted for every strict contiguous part because the constraint has its arguments swapped.

### C60 any_cast by value and by reference

*Model and method*: `CastModel` models the operators of any_cast_fn that return a reference or an object, with the copy and move constructors of T as functions that may throw; `CastSpec` says per operand form which access is meant and what the world may look like afterwards; by case analysis over the form on top of C23/C24.
*Status*: proved, `PropCast.v`: `C60_any_cast_of_any`, `C60_any_cast_of_references`.
*Note*: Assumes distinct types have distinct compiler spellings (C41). The effect of T's own move and copy constructors on values is arbitrary.

### C61 any_cast with the traits of other types

*Model and method*: `CastModel.cast_gen` models any_cast_fn with user traits over the operands of visit_invoke (A 1546-1561).
*Status*: partial, `PropCast.v`: `C61_variant_and_objects_partial`, `C61_valueless_variant_refuted`.
*Note*: Proved for every object and every variant that holds a value; refuted for a valueless variant: std::terminate, because std::visit throws inside the noexcept get_type_descriptor.

### C62 The static type of any_cast's result is the type of the object

*Model and method*: `CastModel.cast_matches` compares the descriptors that the code compares; `remove_cv` and `decay` of `DescModel` are the standard traits.
*Status*: partial, `PropCast.v`: `C62_result_has_the_type_of_the_object_partial`, `C62_array_type_refuted`.
*Note*: Proved for T that is neither an array nor a function type; refuted for arrays: the descriptor is that of the decayed type, so any_cast<int[3]> of an any that holds an int* yields an int(*)[3].

### C63 Arguments of methods arrive unchanged

*Model and method*: `CallModel` models calls with by-value and reference parameters over a store of objects, and on top the frames from invoke_fn::operator() to do_invoke with their static_cast<Args&&>; `CallSpec.passes` relates the caller's state, the state at the start of the body and the state after the call; each frame is proved once and composed.
*Status*: proved, `PropCall.v`: `C63_invoke_passes_arguments`, `C63_member_function_passes_arguments`, `C63_call_operator_passes_arguments`.
*Note*: Parameters of one type; assumes that an object given away is not used by a second argument of the same call.

### C64 Only const methods can be invoked through const operands

*Model and method*: `CallModel.best` models overload resolution among the six overloads of invoke_fn::operator() by the ranking rules that matter here.
*Status*: partial, `PropCall.v`: `C64_const_operands_need_const_methods_partial`, `C64_const_rvalue_any_refuted`, `C64_const_methods`.
*Note*: Holds for all operands except a const rvalue any: the overload for U&& is chosen there and has no check, so a method that modifies the value compiles (C64_const_rvalue_any_refuted).

### C65 Access to fields by number

*Model and method*: `FieldsModel` has the table of branches of magic_tie copied from the code by a script; the number of fields is found by the same downward search; `FieldsSpec.refers_to_field` says which field and constness is meant; the table is checked once by computation, the rest by induction on the number of fields.
*Status*: proved, `PropFields.v`: `C65_field_count`, `C65_get_refers_to_the_field`, `C65_get_compiles_up_to_29_fields`.
*Note*: C arrays inside aggregates are excluded, as in the code's comment.

### C66 Documented value categories and limits of magic_tie

*Model and method*: as C65; `documented_category` is the comment's sentence.
*Status*: partial, `PropFields.v`: `C66_value_category_partial`, `C66_rvalue_reference_field_refuted`, `C66_thirty_fields_refuted`.
*Note*: Proved for all fields except rvalue references in an lvalue aggregate, which are given away as xvalues (refuted); refuted for 30 fields: fields_count_v is 30 but magic_tie has no branch for it (the class comment at P 686 says less than 30).

### C67 Views by type and by number show the right column

*Model and method*: `FieldsModel.get_span` finds the column by the type of its container as std::get does; `FieldsSpec.only_field`.
*Status*: proved, `PropFields.v`: `C67_view_by_type`, `C67_view_by_number`, `C67_tuple_protocol`.
*Note*: bool_ itself (an internal type) as field type is excluded.

### C68 Capacity and validity of spans

*Model and method*: `CapModel`: size, capacity and storage identity of each column, with oracles for the surplus and failure of each allocation; invariant by induction over histories.
*Status*: proved, `PropCap.v`: `C68_size_capacity_max_size`, `C68_no_reallocation_within_capacity`, `C68_reserve`, `C68_storage_stays_after_reserve`, `C68_length_error`.
*Note*: Copying and moving elements does not throw here (C55 has exceptions).

### C69 Values given as rvalues are moved

*Model and method*: `MoveModel` logs the copy and move constructions of fields; `MoveSpec` counts them and describes rows; by induction over the fields.
*Status*: partial, `PropCap.v`: `C69_row_inserted_and_argument_partial`, `C69_rvalues_are_copied_refuted`, `C69_move_only_fields_refuted`, `C69_iter_move`.
*Note*: The stored row, the state of the argument and iter_move are proved; refuted: emplace and emplace_back copy from their parameters, so every field given as rvalue is copied once, and types with a field that cannot be copied do not compile.

### C70 data_parallel_vector uses allocators as std::vector does

*Model and method*: `DpvAllocModel`: each column has elements, an allocator and storage marked with the allocator that made it; std::vector's constructors and assignments from the standard, column by column; `DpvAllocSpec.aspec` is the rule for one vector; invariants by induction over histories with and without exceptions.
*Status*: partial, `PropDpvAlloc.v`: `C70_allocators_partial`, `C70_assign_refuted`, `C70_throwing_copy_refuted`, `C70_elements`, `C70_storage_freed_by_its_allocator`.
*Note*: Refuted for assign and operator= from a list: the temporary has allocator_type(), so a propagating allocator is replaced and an allocator that cannot be default constructed does not compile. Refuted for a copy assignment that propagates allocators and throws midway: columns keep different allocators. Proved for everything else.

### C71 Moves of a data_parallel_vector take the storage

*Model and method*: `DpvAllocModel`, as C70.
*Status*: partial, `PropDpvAlloc.v`: `C71_moves_storage`, `C71_unequal_allocators`, `C71_throwing_move_refuted`.
*Note*: Refuted: a move between unequal allocators that throws midway leaves columns of different lengths.

### C72 poly_ptr and const_poly_ptr behave as pointers

*Model and method*: `RebindModel`: statements over variables of pointer and reference types on top of `PolyModel`'s conversions (default and null initialisation, assignment, ends of lifetimes), pointer operators, comparisons in both standards; `RebindSpec` says what each variable denotes by the meaning of statements alone; proved by an invariant over statements.
*Status*: partial, `PropRebind.v`: `C72_pointer_variables`, `C72_comparisons`, `C72_null_const_pointer_dereferenced_refuted`, `C72_hashes_partial`, `C72_hash_of_const_pointers_refuted`.
*Note*: Refuted for the assertion: operator* of a null const_poly_ptr does not assert. Refuted for std::hash of const_poly_ptr: it passes const void* to std::hash<void*> (A 2023) and does not compile. Proved for everything else. nullptr == p, with nullptr on the left, compiles only in C++20.

### C73 Rebinding references is explicit and exact

*Model and method*: `RebindModel`, as C72; overload resolution for `operator=` between the defaulted functions and the deleted template.
*Status*: partial, `PropRebind.v`: `C73_reference_variables_partial`, `C73_assignment_compiles`, `C73_implicit_rebinding_refuted`, `C73_view_of_rebound_reference_refuted`.
*Note*: Refuted: x = y compiles and rebinds when y is a const lvalue of x's type, while a y that is not const is rejected. Refuted: rebinding a stateful reference changes the table behind views taken from it with get_view, so calls through them run the new type's method on the old object. Proved for all programs that rebind no stateful reference while such a view is alive, and which assignments compile is proved for all.

### C74 Method macros declare what was written

*Model and method*: `MacroModel`: the header's `#define` lines verbatim, a lexer for them and the standard's macro replacement (function-like macros, variadic arguments, `##`, rescanning) as Prosser's algorithm with fuel; `MacroSpec` has the struct text without macros; proved by running the replacement once on a text with holes and showing that filling the holes with balanced, macro-free token lists commutes with replacement.
*Status*: partial, `PropMacro.v`: `C74_anyany_method_partial`, `C74_anyany_extern_method_partial`, `C74_anyany_pseudomethod_partial`, `C74_comma_in_return_type_refuted`, `C74_comma_in_value_type_refuted`.
*Note*: Proved for all token lists without names of the header's macros, with matched parentheses, whose return type has no comma outside parentheses; refuted for every return type with such a comma, for instance std::pair<int, char>: AA_IMPL_CONCAT_EXPAND gets too many arguments.

### C75 Any(args...) means what was written

*Model and method*: `ConsModel`: candidate sets, deduction, constraints, ranking of conversions, partial ordering of the 13 constructors over any argument list; `ConsResolve` computes the choice for each shape of list; meaning stated in `ConsSpec` without overload resolution.
*Status*: partial, `PropCons.v`: `C75_construction_partial`, `C75_nothing_else_compiles`, `C75_never_ambiguous`, `C75_any_in_any_only_when_asked_partial`, `C75_traits_agree`, `C75_allocator_nests_any_refuted`, `C75_allocator_in_place_refuted`, `C75_allocator_in_place_arguments_refuted`, `C75_tag_taken_for_value_refuted`.
*Note*: Refuted: Any(allocator_arg, alloc, any) nests the any (the constructor lacks is_not_polymorphic), so uses-allocator construction of a copy nests; Any(allocator_arg, alloc, in_place_type<T>) stores the tag and with arguments does not compile; Any(in_place_type<T>) with T lacking a method that the tag type has stores the tag. Proved for all other argument lists; C++20, types without conversion functions.

### C76 any = x and emplace store what was written

*Model and method*: `ConsModel`, as C75: `operator=` with user-defined conversions through the constructors.
*Status*: partial, `PropCons.v`: `C76_assignment_partial`, `C76_never_ambiguous`, `C76_no_any_in_any`, `C76_emplace`, `C76_assigned_tag_makes_object_refuted`.
*Note*: Refuted: any = in_place_type<T> makes an object T() through the converting constructor when the tag itself lacks the methods. Proved for all other right sides.

### C77 Classes are taken for the methods they were written as

*Model and method*: `MethodModel`: a class as the set of declarations the library looks at (templates with constraints, signatures and bodies as functions of the type), substitution failure and hard errors as outcomes, overload resolution between the int/bool/... helpers; `MethodSpec`: the forms one writes.
*Status*: partial, `PropMethod.v`: `C77_methods_as_written_partial`, `C77_pseudomethods_as_written`, `C77_exist_for_all`, `C77_exist_for_any_class`, `C77_functions_of_any_class`, `C77_values_of_any_class`, `C77_no_self_refuted`, `C77_void_value_refuted`, `C77_lists_of_methods_partial`, `C77_nested_list_refuted`, `C77_not_for_int_refuted`, `C77_auto_return_refuted`.
*Note*: Refuted: without signature_type the signature is that of do_invoke<int>, so a method whose do_invoke is constrained and not for int has none and no table compiles. Refuted: a deduced return type makes the body of do_invoke compile for int even when signature_type is declared, because all three overloads of get_method_signature are substituted into. Refuted: the concept method rejects nested lists, which any_with accepts. Proved for all other classes of the two forms. Refuted: the concepts accept a signature_type without self and a value_type of void, for which no table compiles. For arbitrary classes it is proved what exist_for asks for, and where a function or value is taken from.

### C78 A type that exist_for accepts has a table

*Model and method*: `MethodModel`, as C77: initialisation of parameters from arguments, `invoker_for`, `vtable_for`.
*Status*: partial, `PropMethod.v`: `C78_accepted_types_have_entries_partial`, `C78_values_have_entries_partial`, `C78_entry_calls_the_function`, `C78_const_methods_do_not_modify`, `C78_entry_matches_slot`, `C78_entries_in_order`, `C78_self_by_value_refuted`, `C78_self_by_rvalue_reference_refuted`, `C78_argument_by_value_refuted`, `C78_other_signature_refuted`, `C78_function_and_value_refuted`, `C78_overloaded_function_refuted`.
*Note*: Refuted: exist_for holds, so is_constructible says yes, but the table does not compile, when self is taken by value and T cannot be copied, when self is taken by rvalue reference (for every T), when a parameter by value cannot be moved, when signature_type disagrees with do_invoke, and when a class has both do_value and a do_invoke for int. Refuted the other way round: overloaded do_invoke. Proved: for classes of the documented forms exactly when the table compiles; for all classes that const methods do not get a mutable object and that entries fit their slots.

### C79 Which plugins an any inherits

*Model and method*: `MethodModel`: `get_plugin`, `select_plugin`; combined with the proof of C39.
*Status*: proved, `PropMethod.v`: `C79_inherited_plugins`.

### C80 Values that fit the buffer never touch the allocator

*Model and method*: `AnyModel`, histories of `AnyHistory` run by `exec`; invariant by Hoare triples over every function of the model (`AnyNoAlloc`).
*Status*: proved, `PropAnyNoAlloc.v`: `C80_small_values_never_touch_the_allocator`, `C80_values_stay_in_the_buffers`, `C80_allocator_is_not_asked`, `C80_such_programs_run`.
*Note*: README 276-277. That `basic_any_with<unreachable_allocator, ...>` does not compile when it would allocate is the static counterpart: the functions that name allocate (emplace_in_empty for types that do not fit or when forced, replace_with_bytes, copy_fn for types that do not fit) are the ones excluded here; instantiation itself is not modelled.

### C81 Storage of basic_any_with and of its copy method agree

*Model and method*: `NormModel`: `rebind_to_byte`, `soo_buffer_size`, `copy_with`, `basic_any_with`, `has_copy`, the signature of `materialize`; spec of storage in `NormSpec`.
*Status*: partial, `PropNorm.v`: `C81_any_exists`, `C81_storage_of_an_any`, `C81_static_asserts_hold`, `C81_copyable_iff_has_its_copy_method`, `C81_same_copy_method_iff_same_storage`, `C81_parameters_of_the_class`, `C81_materialize_gives_back_the_type`, `C81_materialize_partial`, `C81_materialize_ill_formed_refuted`, `C81_materialize_buffer_refuted`.
*Note*: Refuted for materialize with arguments that need adjusting: its return type is basic_any<Alloc, SooS, Methods...>, not basic_any_with. With an allocator of other than bytes, or 0 < SooS < sizeof(size_t), the constraint accepts but a static_assert of the return type fails; with 8 <= SooS < 16 it compiles, but the copy function in the table is one for a 16 byte buffer while the any declares SooS bytes (the union still has 16 because of its alignment). Also noted: basic_any_with<A, S, aa::copy> with other storage than the default compiles and is movable but silently not copyable.

### C82 Expressions on elements compile and act as for std::vector

*Model and method*: `DpvExprModel`: a language of expressions, `dty` (what compiles, with the conversions and overloads of proxy, const_proxy and iterator_) and `dev` (what it does, on the columns); `DpvExprSpec`: the same for std::vector on rows; induction on expressions.
*Status*: partial, `PropDpvExpr.v`: `C82_const_vectors_stay`, `C82_same_value_and_effect`, `C82_compiles_as_vector_partial`, `C82_back_of_const_refuted`, `C82_iterator_difference_refuted`, `C82_mixed_comparison_refuted`, `C82_const_reference_refuted`.
*Note*: Refuted for these forms, true for all others: back() const is declared to return reference and cannot be instantiated (P 441-444); iterator - const_iterator (operator- is a member taking the same iterator type); the conversion of a reference to a const_reference is declared but copies a proxy, whose copy constructor is deleted because proxy declares a move assignment (P 105, 192), so it cannot be instantiated, and with it reference == const_reference; reference <=> const_reference is ambiguous, also written as < etc. (value_type and const_proxy conversions compete). it - n with negative n fails an assert in debug builds (C54), so those expressions are excluded unless NDEBUG. Sizes below 2^63; exceptions of field assignments are in C55.

### C83 Structured bindings of vectors and of references to elements

*Model and method*: `BindModel`: tuple_size, tuple_element, get, tie, the rule of structured bindings over the columns of `FieldsModel`, and argument dependent lookup of get over the namespaces of the types; by the lemmas of C67.
*Status*: partial, `PropBind.v`: `C83_structured_bindings_partial`, `C83_other_allocators_refuted`.
*Note*: Refuted for vectors of which neither the value type nor the allocator has std among its associated namespaces, such as a struct of the user's with std::pmr::polymorphic_allocator: get of vectors is declared in namespace std (P 745-762), structured bindings find it only by argument dependent lookup, and it is not found. Proved for all others and for references. Lifetimes of the columns are in C50-C56; const references as bound objects (const auto [..] = v[0]) are treated as references; a named reference cannot be bound by value (it cannot be copied).

### C84 Which overload an erased visitor calls

*Model and method*: `OverloadModel`: implicit conversion sequences to reference parameters, their ranking and overload resolution (`resolve`), the hidden friends of visit1/visit2 and their bodies; `OverloadSpec`: nearest class; `OverloadProofs`: characterisation of `resolve`, product interfaces componentwise.
*Status*: partial, `PropOverload.v`: `C84_nearest_class`, `C84_arguments_independent`, `C84_only_mutable_lvalues`, `C84_overload_for_const_refuted`, `C84_invocable_tells_refuted`.
*Note*: Refuted: for const T the interface declares an overload but its body passes const T* as void* and does not compile (U 205, 242); operator() and visit are unconstrained templates, so std::invocable holds for every argument. What does compile is characterised: nearest class, mutable lvalues only.

### C85 Which classes are accepted as erased visitors

*Model and method*: `OverloadModel.do_value`: the constraint, invoke_result and call expression of visit1/visit2 on classes with reference qualified call operators and pointers to members; by cases.
*Status*: partial, `PropOverload.v`: `C85_ordinary_classes_partial`, `C85_called_is_callable`, `C85_every_callable_refuted`.
*Note*: Refuted beyond classes with unqualified call operators: the constraint asks for a call of a const rvalue, the body calls a const lvalue (operator() const && is accepted and does not compile, operator() const & with a deleted && is not accepted); std::invocable also holds for pointers to members, which visit_fn cannot call.

### C86 Insertion into a swarm selects the container of the nearest type

*Model and method*: `OverloadModel.insert_call`: the two inserts of each type under the same overload resolution; `OverloadSpec.nearest_type`; `InserterModel` composes it with the swarm of C47.
*Status*: proved, `PropOverload.v`: `C86_insert_nearest_type`, `C86_inserter_compiles`, `C86_inserter_inserts`.
*Note*: Conversions are given by their rank; ranking of two uses of one conversion function, braced lists and valueless variants are left out.

### C87 What references and pointers are made from

*Model and method*: `RefConsModel`: the constructors of the six templates as candidates with their constraints, conversion sequences and bodies; selection as in [over.match.best]; `copy_init` without, `direct_init` with user-defined conversions to parameters that are not deduced. `RefConsSpec.made_from` lists the sources independently of candidates.
*Status*: partial, `PropRefCons.v`: `C87_made_from`, `C87_never_ambiguous`, `C87_const_is_kept`, `C87_const_from_all_partial`, `C87_const_from_all_refuted`, `C87_does_not_compile`, `C87_constraints_tell_refuted`, `C87_void_refuted`.
*Note*: False as stated: const_poly_ptr takes a pointer to an any only if the list is the same (the constraint at A 762-763 has its arguments the other way round than A 682-683) and no pointers to views, so that const_poly_ptr<print> p = std::addressof(any) fails for an any with more methods; with more methods than the any has the constraint holds but the body does not compile; poly_ptr is made from void*.

### C88 References to arrays and functions

*Model and method*: `RefConsModel.body`: what value_ptr and the table are initialised with; std::decay is `decay`, specified by `decayed`. A function pointer does not convert to void*, so the body does not compile.
*Status*: partial, `PropRefCons.v`: `C88_table_of_the_object_partial`, `C88_table_of_arrays`, `C88_arrays_without_decay_refuted`, `C88_no_references_to_functions`, `C88_no_pointers_to_functions`, `C88_functions_without_decay_refuted`.
*Note*: False as stated: the table is always that of the decayed type, so for arrays it is the table of a pointer applied to the array; functions do not convert to void*.

### C89 Deduction of the methods of references and pointers

*Model and method*: `RefConsModel.deduce`: guides from constructors, the copy deduction candidate and the two written guides, ranked as in [over.match.best] including partial ordering.
*Status*: partial, `PropRefCons.v`: `C89_methods_of_the_view`, `C89_none_otherwise`, `C89_pointers_to_anys`, `C89_methods_of_the_any_refuted`.
*Note*: False for pointers to anys: an empty list is deduced. A pack that is not deduced is taken to be empty, as compilers do.

### C90 Reading writes nothing

*Model and method*: `AnyCostSpec.writes_nothing` over `PolyModel`'s observers, casts, comparisons and views; construction and programs by the frame invariant of `AnyHistory.step_safe`, literally (fields of the any, its block).
*Status*: proved, `PropAnyCost.v`: `C90_observers_write_nothing`, `C90_views_write_nothing`, `C90_constructing_keeps_old_memory`, `C90_programs_write_only_what_they_name`.
*Note*: The user's operator==, hash etc. are taken to write nothing. Stateful references are objects of their own: making one is covered by C90_constructing_keeps_old_memory. Memory effects are those of the model: the absence of conflicting writes, not the C++ memory model. Writing the value that is already there is not seen as a write.

### C91 Number of objects constructed and blocks allocated

*Model and method*: `AnyCostSpec.made` counts objects of all types, `ctors` the constructor calls of types with a destructor, `allocs` blocks; budgets per function composed in `AnyCost`.
*Status*: proved, `PropAnyCost.v`: `C91_budget`, `C91_constructed_in_place`, `C91_move_construction_steals`, `C91_move_assignment_steals`.
*Note*: A relocation by memcpy counts as one construction. Arguments of the user's constructor are not counted.

### C92 Allocator-aware values use the allocator of their any

*Model and method*: `InnerModel`: anys with allocator, memory (and the resource it is from) and value (and the resource it uses), resources that end; `InnerSpec.contract` is the user's side; invariant over programs in `InnerProofs`, single operations in any state by what each step leaves alone.
*Status*: partial, `PropInner.v`: `C92_built_in_place`, `C92_moved`, `C92_copied`, `C92_programs_partial`, `C92_move_assignment_refuted`, `C92_programs_refuted`, `C92_copy_assignment_refuted`, `C92_conversion_refuted`, `C92_destroyed_by_the_allocator_refuted`.
*Note*: Refuted where allocators differ and do not propagate: after a = std::move(b), a = b or a converting move the value in a still uses the resource of b (or the one its copy constructor selects), while a.get_allocator() is another; when that resource is destroyed, as b's user may, a is left with a value without memory. Also refuted: objects made by allocator_traits::construct are destroyed by their destructor directly, allocator_traits::destroy is never called. Proved for values built in place, and for all programs without such transfers. Exceptions are not in this model.

### C93 Layout of anys and views

*Model and method*: `LayoutModel`: the rule of the Itanium C++ ABI for placing bases and members (empty ones too), and the member lists of basic_any, poly_ref and stateful::ref; invariant over placement in `LayoutProofs`; `LayoutSpec` speaks of bytes only.
*Status*: partial, `PropLayout.v`: `C93_members_apart`, `C93_buffer_apart`, `C93_value_in_buffer`, `C93_size`, `C93_useless_memory_partial`, `C93_useless_memory_refuted`, `C93_views`, `C93_stateful`.
*Note*: Refuted: soo_buffer_size is commented 'SooS uses all padding it can (so no useless memory)', but the union is aligned to 16 and sizes above 16 are not rounded up; the default any (40 bytes of buffer) has 8 bytes of 64 that nothing uses. Proved: memory is useless exactly when the buffer size is not a multiple of 16. The layout rule is that of the Itanium ABI and is part of what is trusted.

### C94 Programs that use different anys do not influence each other

*Model and method*: `AnyLocalSpec`: what an operation names and changes, when two memories are alike up to addresses, interleavings; `AnyLocal`: a relational logic over two runs, with one rule for each function of `AnyModel`; the interleaving theorem is proved by keeping the common memory alike to each program's own.
*Status*: proved, `PropAnyLocal.v`: `C94_depends_only_on_what_it_names`, `C94_interleavings`, `C94_alike_means_same_values`.
*Note*: Interleavings are of whole operations; that two operations running at once do not touch the same memory is C90. Failures belong to the operation (the k-th action of it that may throw throws or not), so that they do not depend on what else runs. The user's functions are those of AnyModel: they see the value, not its address.

### C95 An any is an optional value, wherever it is stored

*Model and method*: `AnyValueSpec`: the machine of optional values (`vstep`, `vplay`), and programs of `AnyModel` with what the caller sees (`play`); `AnyValue`: one refinement step per operation from the outcome lemmas behind C04–C12, induction over programs; that nothing throws when nothing is told to is a small logic with a rule for each function.
*Status*: proved, `PropAnyValue.v`: `C95_behaves_as_optional_values`, `C95_storage_does_not_matter`, `C95_same_for_all_storage_when_only_methods_throw`.
*Note*: Which programs are legal may depend on the environment (a type whose move throws needs the heap; an OSwap needs move methods if there is a buffer), so legality is asked for in each of the two. materialize from a stateful reference is left out of the programs, as a reference keeps an address and not a value. Assignments that throw between allocators neither always equal nor propagating are excluded in the theorems by hypothesis; what is lost there is C08's refutation.

### C96 Anys inside the values of anys

*Model and method*: `NestModel`: anys whose values are structs with an int and a std::vector of anys, the library's functions recursive through the user's constructors and destructors (fuel; running out is an outcome of its own that the theorems exclude); `NestSpec`: the machine of trees, and which blocks an any owns, itself and through the anys inside; `NestProofs`: destruction frees exactly the blocks owned, copies own only new blocks; `NestFocus`: an any, or two, taken out of the forest and put back; `NestSteps`: one lemma per operation, more fuel changes nothing. The two moves between an any and an any inside its value are refuted.
*Status*: partial, `PropNest.v`: `C96_anys_in_anys_are_trees_partial`, `C96_no_memory_is_lost`, `C96_moves_make_nothing`, `C96_moving_out_of_the_own_value_refuted`, `C96_moving_into_the_own_value_refuted`.
*Note*: Refuted: x = std::move(x.child) empties x, and with it the child, before the child is read (A 1219-1227), so it is undefined behaviour. Refuted: x.child = std::move(x) makes the value own itself and leaks it. All other operations are proved, copy assignment from and into the own value included. Emplacing from the old value is excluded as in the standard library. Value semantics of the struct only; allocators always equal.

### C97 Uses-allocator construction of anys

*Model and method*: `UsesModel`: std::uses_allocator of the library (A 1957-1958) and the choice of [allocator.uses.construction] between a leading and a trailing allocator, over the overload resolution of `ConsModel`; `UsesSpec`: the list of what can be made; meaning of a request as in C75.
*Status*: partial, `PropUses.v`: `C97_values_get_the_allocator_partial`, `C97_other_allocators_are_not_used`, `C97_what_can_be_made`, `C97_in_place_passes_the_allocator_on`, `C97_anys_are_nested`, `C97_never_ambiguous`, `C97_copying_an_any_refuted`, `C97_moving_an_any_refuted`, `C97_in_place_arguments_refuted`, `C97_in_place_compiles_refuted`, `C97_in_place_without_arguments_refuted`.
*Note*: Refuted: copying or moving an any this way nests it in the new any; in_place_type<T> with arguments passes the allocator to T and not to the any, and does not compile when T takes none; in_place_type<T> alone stores the tag. Proved for no argument and for values that are neither anys, references, nor tags, and a complete list of results for everything else. Classes derived from anys are not covered (uses_allocator is false for them).

### C98 noexcept specifications of anys

*Model and method*: `NoexceptModel`: the specifications as the type traits see them, beside the bodies of `AnyModel`; construct_value with an allocator that calls another constructor than T(args...); `NoexceptSpec`: what it is that an operation of a class can throw (some types, some reachable state, some failure); a failure that makes every risky action throw gives the witnesses for all classes.
*Status*: partial, `PropNoexcept.v`: `C98_noexcept_operations_return_partial`, `C98_other_operations_can_throw_partial`, `C98_move_constructors_cannot_throw`, `C98_move_construction_noexcept_refuted`, `C98_converting_move_noexcept_refuted`, `C98_move_assignment_without_buffer_refuted`, `C98_force_stable_pointers_refuted`, `C98_same_constructor_never_terminates`, `C98_constructor_chosen_by_allocator_refuted`.
*Note*: Refuted, too strong: force_stable_pointers (C19); construct_value is noexcept if T(args...) is, but std::pmr::polymorphic_allocator calls T(args..., alloc), which may throw (a pmr::string moved into an any with another resource): std::terminate. Refuted, too weak: both move constructors are noexcept(movable_alloc()) and never throw for any allocator; move assignment without buffer does not throw either. Proved for all other operations. The default constructor is the one with an allocator.

### C99 Anys as elements of std::vector

*Model and method*: `VectorModel`: reserve, push_back and erase of std::vector as the standard prescribes them (move_if_noexcept included), written with the operations of `AnyModel` and the noexcept answers of `NoexceptModel`; `VectorSpec`: the elements as a list of values; induction over the elements with the specifications of the single operations; capacity, allocation of the vector's own storage and insertion in the middle are not modelled.
*Status*: partial, `PropVector.v`: `C99_growth_keeps_elements`, `C99_growth_moves_partial`, `C99_growth_copies_refuted`, `C99_growth_throws_refuted`, `C99_push_back`, `C99_push_back_rvalue_partial`, `C99_push_back_loses_the_value_refuted`, `C99_erase`.
*Note*: Refuted for copyable anys whose allocator is neither always equal nor propagating (std::pmr::polymorphic_allocator): the move constructor is not declared noexcept although it cannot throw (C98), so std::vector copies: growth may throw, allocates, moves values on the heap to other addresses, and the copies use select_on_container_copy_construction (the default resource); push_back(std::move(a)) that throws has destroyed a's value. Proved for all other anys, and that elements survive for all.

### C100 Anys as keys of std::unordered_set

*Model and method*: `KeyModel`: buckets, nodes with hash codes, find, insert, erase and rehash of std::unordered_set as every implementation does them, with hash, == , copy and destruction of `PolyModel` and `AnyModel`; `KeySpec`: a set of optional values; `KeyHistory`: all sequences of operations on the set mixed with any operations on other anys; invariant: each node is alive, has the code of its content and is in the bucket of that code, contents are pairwise different; the memory of the nodes (and its failure) and the policy of rehashing are not modelled.
*Status*: proved, `PropKey.v`: `C100_unordered_set`, `C100_contains`, `C100_insert`, `C100_erase`, `C100_rehash`.

### C101 Anys as keys of std::set

*Model and method*: `KeyModel`: lower_bound, find, insert and erase in a binary search tree as in std::set, with < rewritten to <=>; balancing is any change of shape that keeps the in-order sequence; proved for values of one type by induction on the tree; for several types and for empty anys the claim is refuted.
*Status*: partial, `PropKey.v`: `C101_set_partial`, `C101_find_partial`, `C101_insert_partial`, `C101_erase_partial`, `C101_other_types_refuted`, `C101_weak_order_refuted`, `C101_empty_key_undefined`.
*Note*: Refuted as a claim about anys: values of different types are unordered, so that each is 'equivalent' to every value of the other type. < is then no strict weak order (equivalence is not transitive), and std::set refuses a value of another type although no element equals it; and finding or inserting an empty any in a set with elements is undefined behaviour (C25). Proved for sets whose values have one type.

### C102 Programs on data_parallel_vectors

*Model and method*: `DpvProgModel`: programs as trees of statements (`dop`) and expressions (`expr`) with continuations over their results; `DpvProgSpec.vruns`: the same on std::vectors; induction on the run with the simulations of C50 and C82.
*Status*: partial, `PropDpvProg.v`: `C102_programs_as_vectors_partial`, `C102_auto_variable_refuted`.
*Note*: Refuted for auto x = v[i]: x is a proxy and changes with the vector, so that the usual exchange through a variable loses a row (for every vector and every two different rows). Proved for all other programs; what data_parallel_vector lacks (C50, C52, C82) is left out by vruns. Iterators kept in variables are kept as positions.

### C103 Sorting and filtering data_parallel_vectors

*Model and method*: `DpvAlgoModel`: insertion sort and erase-if as programs of C102; they are verified on lists of rows and carried over by C102.
*Status*: proved, `PropDpvProg.v`: `C103_sort`, `C103_erase_if`.
*Note*: The algorithms are written in the language of C102, not those of the standard library. Comparisons of fields are total orders (total_order).

### C104 Algorithms that compare and move anys

*Model and method*: `ArrangeModel`: programs that compare, move-construct, move-assign and destroy anys; run on `AnyModel` and, by `ArrangeSpec.vrun`, on cells (a value and the block it lives in); proved to agree step by step. Insertion sort (with a hole, as the standard libraries do it) and reverse are verified on cells and carried over.
*Status*: partial, `PropArrange.v`: `C104_algorithms_move_values`, `C104_values_are_not_duplicated`, `C104_reverse`, `C104_sort_partial`, `C104_other_types_refuted`, `C104_empty_anys_refuted`.
*Note*: The claim about sorting is refuted for anys of several types (unordered values keep an any before a lesser one) and for empty anys (undefined behaviour, C25); proved for values of one type. The other claims are proved in full.

### C105 The same program in C++17 and in C++20

*Model and method*: `StdModel`: the overload resolution of `ConsModel` with the constraints of either standard, and whether the body of the chosen member compiles (copy method present, get_move_fn, the vtable of the stored type); closed forms of the resolution in both standards (`StdResolve`) are compared with those of C75 and C76. The program's own types may say more in C++17 than they can do (`consistent`). std::vector is represented by std::move_if_noexcept.
*Status*: partial, `PropStd.v`: `C105_construction_partial`, `C105_assignment`, `C105_cpp17_is_cpp20`, `C105_cpp20_is_cpp17_partial`, `C105_cpp20_is_cpp17_refuted`, `C105_never_ambiguous`, `C105_traits_of_construction_cpp20`, `C105_traits_of_assignment_cpp20_partial`, `C105_move_assignable_refuted`, `C105_traits_never_deny`, `C105_traits_of_copy_cpp17_refuted`, `C105_traits_of_move_cpp17_refuted`, `C105_exist_for_cpp17_refuted`, `C105_vector_grows_cpp20`, `C105_vector_grows_cpp17_partial`, `C105_vector_grows_cpp17_refuted`, `C105_hash_cpp20`, `C105_hash_cpp17_refuted`.
*Note*: What compiles in C++17 compiles in C++20 with the same meaning; the converse is refuted for a lone in_place_type tag of a type whose traits claim too much (C++20 stores the tag). In C++17 the traits are refuted: every any says it can be copied and moved, exist_for and std::hash say so too, and a vector of anys that can only be moved, with an allocator that does not propagate, does not compile when it grows. In both standards move assignment of an any without buffer, move and copy, with such an allocator, is said to exist and does not compile. Proved otherwise.

### C106 Classes with anys as members

*Model and method*: `StructModel`: the memberwise special members the standard prescribes, over the operations of `AnyModel`; an object is the list of its members, each with its own method list; members that are no anys are not modelled. Induction over the members with the specifications of the single operations (`StructProofs`), the order of destruction from the log.
*Status*: partial, `PropStruct.v`: `C106_copy`, `C106_move`, `C106_destroy`, `C106_copy_assign_partial`, `C106_copy_assign_strong_refuted`, `C106_self_copy_assign`, `C106_move_assign`, `C106_self_move_assign`, `C106_assign_by_copy_partial`, `C106_assign_by_copy_refuted`, `C106_swap`.
*Note*: Refuted for exceptions in assignment: the memberwise copy assignment keeps the members assigned before the exception; copy-then-move assignment leaves the object as it was if allocators are always equal or propagate, otherwise (std::pmr::polymorphic_allocator) the move assignment can throw and the value of a member is lost. Proved otherwise; assignments and swap for allocators that are always equal or propagate.

### C107 What visit_invoke compares

*Model and method*: `VisitCostModel`: the functions of `VisitModel` (std::lower_bound, find, operator< of std::array, std::find_if) with the comparisons they make recorded; proved to return what those return. Induction over the length of the range; any sorted permutation of pairs with different keys is the table. The linear scan of the const check is exhibited for every factor.
*Status*: partial, `PropVisitCost.v`: `C107_lookup_is_logarithmic`, `C107_recorded_comparison_is_the_comparison`, `C107_every_sort_gives_the_table`, `C107_const_check_scans_the_overloads`, `C107_checked_call_logarithmic_refuted`.
*Note*: Proved for the lookup, which is all an unchecked call compares; refuted for checked calls (Unsafe = false, or assertions enabled): runtime_const_correctness_check looks the winner up again by a linear scan over all overloads.

### C108 Atomic pointers

*Model and method*: `AtomicModel`: a pointer is its two words; load, store, exchange and compare_exchange_strong are atomic, a spurious failure of compare_exchange_weak is a load, threads are trees of operations depending on what they read, a schedule is a list of thread numbers (so sequentially consistent). Invariants of the run for every predicate on pointers, for installing and for the loops (a thread fails at most as often as others succeed). Pointers denote objects as in C72 (`pointer_to`). The second claim is refuted: compare_exchange compares words, operator== does not.
*Status*: partial, `PropAtomic.v`: `C108_only_whole_pointers_are_read`, `C108_compare_exchange_partial`, `C108_compare_exchange_is_not_equality_refuted`, `C108_one_thread_installs`, `C108_one_thread_installs_into_any_null_refuted`, `C108_updates_are_serial`, `C108_weak_successes_are_serial`, `C108_weak_updates_are_serial`, `C108_exchange_hands_over`.
*Note*: compare_exchange that succeeds found an equal pointer; the converse is refuted: a pointer made from an any and narrowed uses a part of the larger table, one made from the object itself its own table, and they are ==; nullptr and a pointer made from a null T* are both null with different words, and then nobody can install a pointer where nullptr is expected. Sequential consistency only; a spurious failure of compare_exchange_weak is taken to read the pointer that is there; padding-free layout is C93.

### C109 A value on the heap is followed through a program

*Model and method*: `FollowSpec`: `follow` reads off the program (the list of operations of `AnyHistory`, including ones that throw) which any gets the value of any i, None when the value may end; `kept` says that the object of the same identity is at the same block. Induction over the program from the specifications of single operations; swap is its three moves and the destructor of the temporary. For allocators that neither always compare equal nor propagate only `follow_constructing` (no assignments, no swaps of the holder); that the stronger claim fails there is `…_refuted`. The lifetime from the log of destructions of C03 and C05 and the fact that the log only grows; values whose destructor is trivial are not in that log. Pointers and references are those of `PolyModel` (C23-C29); a table inside a stateful reference must outlive them.
*Status*: proved, `PropFollow.v`: `C109_heap_value_is_followed`, `C109_pointers_act_on_it`, `C109_calls_as_through_the_any`, `C109_lifetime`, `C109_constructions_keep_it`, `C109_assignment_needs_allocators_refuted`.
*Note*: Proved as stated. The condition on allocators for assignments and swaps is necessary: the refuted theorem is a move assignment between unequal, not propagating allocators, which makes another object (see C13). Values in the buffer move; their pointers are C13 and C24.

### C110 Descriptors as keys of maps

*Model and method*: `DescKeyModel`: std::map as a binary search tree (lower_bound and find as implementations do, insertion and erasure with both comparisons at each node; every rebalanced tree with the same order is allowed) and std::unordered_map as buckets of nodes with hash codes, both over `DescModel`. Invariant: the entries in order correspond to a sorted list of names (each bucket to a list of names with that code); induction over histories. The theorems on registries combine it with C41.
*Status*: proved, `PropDescKey.v`: `C110_map_finds`, `C110_map_goes_on`, `C110_map_iterates`, `C110_unordered_map_finds`, `C110_unordered_map_goes_on`, `C110_unordered_map_iterates`, `C110_registry`, `C110_unordered_registry`, `C110_handlers_of_anys`, `C110_handlers_of_views`.
*Note*: std::map needs operator<, so C++20; comparison by addresses (AA_CANT_GET_TYPENAME) is C41. The registry theorems have the hypotheses of C41 about the spelling of types. Memory of the nodes and exceptions of X are not modelled.

## Tests of the models

`Conform*.v` run the project's own tests (`/repo/tests`) in the models: each `Example` states what the test named in its comment expects
and is checked by evaluation.  All of them agree.  They are evidence that the models follow the code, not proofs of any property.

* `ConformAny.v`: special_member_functions, noallocate, strange_allocs, transmutate_ctors, always_allocated, zero_sized, memory_reuse,
  assignments, comparison, any_cast, ptr_behavior.
* `ConformCons.v`, `ConformRefs.v`: what the `static_assert`s on construction, assignment and deduction say.
* `ConformMeta.v`: find_subsequence, has_subsequence, subtables, interface_alias, concepts.
* `ConformMore.v`: visit_invoke, any_cast of variants, type_switch.
* `ConformVec.v`: erased visitors, variant_swarm, data_parallel_vector.

## Tests of the theorems

`seeded/LOG.jsonl` records edits of the model that mimic realistic mistakes in the code, made in a scratch copy, with
the theorems that stopped proving and the theorems tightened when an edit survived.
