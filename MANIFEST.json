{
 "claims": [
  {
   "property": "C01",
   "status": "proved",
   "theorems": [
    "C01_no_undefined_behaviour",
    "C01_terminates_only_in_force_stable"
   ],
   "note": ""
  },
  {
   "property": "C02",
   "status": "proved",
   "theorems": [
    "C02_outstanding_blocks_have_one_owner",
    "C02_nothing_left_when_all_destroyed",
    "C02_every_program_is_covered"
   ],
   "note": ""
  },
  {
   "property": "C03",
   "status": "proved",
   "theorems": [
    "C03_constructed_is_destroyed_or_held",
    "C03_each_object_destroyed_once",
    "C03_all_destroyed_in_the_end"
   ],
   "note": ""
  },
  {
   "property": "C04",
   "status": "proved",
   "theorems": [
    "C04_copy_is_equal_and_elsewhere",
    "C04_copy_is_independent"
   ],
   "note": ""
  },
  {
   "property": "C05",
   "status": "proved",
   "theorems": [
    "C05_move_construction",
    "C05_move_assignment",
    "C05_old_value_is_destroyed",
    "C05_swap_exchanges"
   ],
   "note": "An any without buffer (SooS == 0) is movable without `move` or copy_with (A 1165); but where allocators neither are always equal nor propagate, the body of its move assignment names get_move_fn (A 1240) and does not compile although the operator is declared: excluded by has_move_assign."
  },
  {
   "property": "C06",
   "status": "proved",
   "theorems": [
    "C06_copy_assignment"
   ],
   "note": ""
  },
  {
   "property": "C07",
   "status": "proved",
   "theorems": [
    "C07_constructors_strong_guarantee"
   ],
   "note": ""
  },
  {
   "property": "C08",
   "status": "partial",
   "theorems": [
    "C08_assignment_strong_guarantee_partial",
    "C08_copy_assignment_compatible_partial",
    "C08_copy_assignment_loses_value_refuted",
    "C08_move_assignment_loses_value_refuted",
    "C08_assignment_terminates_refuted"
   ],
   "note": "Proved for always-equal or move-propagating allocators, and for every allocator when the temporary's memory can be taken over; refuted for unequal non-propagating allocators (old value lost, or std::terminate)."
  },
  {
   "property": "C09",
   "status": "proved",
   "theorems": [
    "C09_emplace",
    "C09_old_value_destroyed_others_kept",
    "C09_construction",
    "C09_usable_after_exception"
   ],
   "note": ""
  },
  {
   "property": "C10",
   "status": "proved",
   "theorems": [
    "C10_reset",
    "C10_reset_idempotent",
    "C10_destroy_value",
    "C10_destroy_value_idempotent"
   ],
   "note": ""
  },
  {
   "property": "C11",
   "status": "proved",
   "theorems": [
    "C11_replace_with_bytes",
    "C11_then_emplace_does_not_allocate"
   ],
   "note": ""
  },
  {
   "property": "C12",
   "status": "proved",
   "theorems": [
    "C12_sizeof_now",
    "C12_capacity"
   ],
   "note": ""
  },
  {
   "property": "C13",
   "status": "partial",
   "theorems": [
    "C13_stable_means_heap",
    "C13_move_construction_keeps_address",
    "C13_move_assignment_keeps_address_partial",
    "C13_move_assignment_moves_value_refuted",
    "C13_no_buffer_means_stable",
    "C13_forced_means_stable",
    "C13_is_stable_pointers_iff_owns_memory"
   ],
   "note": "Proved for move construction with every allocator and for move assignment with always-equal or propagating allocators; refuted for unequal non-propagating ones."
  },
  {
   "property": "C14",
   "status": "proved",
   "theorems": [
    "C14_move_assignment_never_throws",
    "C14_move_construction_never_throws",
    "C14_converting_move_never_throws"
   ],
   "note": ""
  },
  {
   "property": "C15",
   "status": "partial",
   "theorems": [
    "C15_construction_placement",
    "C15_copy_placement",
    "C15_small_copy_cannot_run_out_of_memory",
    "C15_move_assignment_partial",
    "C15_small_heap_value_allocates_refuted",
    "C15_only_small_values_in_buffers"
   ],
   "note": "Proved for construction, copy, move construction and move assignment of values in the buffer; refuted for small values kept on the heap by force_stable_pointers when allocators are unequal and do not propagate."
  },
  {
   "property": "C16",
   "status": "partial",
   "theorems": [
    "C16_with_buffer_partial",
    "C16_compatible_programs_partial",
    "C16_no_buffer_wrong_allocator_refuted",
    "C16_no_buffer_copy_assignment_refuted"
   ],
   "note": "Proved for SooS != 0 without converting moves, and for all programs that never take over memory of an unequal allocator; refuted for SooS == 0 and for converting moves."
  },
  {
   "property": "C17",
   "status": "partial",
   "theorems": [
    "C17_converting_copy",
    "C17_converting_move_partial",
    "C17_converting_move_wrong_allocator_refuted"
   ],
   "note": "Copy conversion proved; move conversion proved when the default-constructed allocator equals the source's; refuted otherwise."
  },
  {
   "property": "C18",
   "status": "partial",
   "theorems": [
    "C18_materialize_partial",
    "C18_throwing_copy_refuted",
    "C18_bad_alloc_refuted",
    "C18_stateful_allocator_refuted",
    "C18_result_dangles_refuted"
   ],
   "note": "Proved for allocators without state when the copy cannot throw (or the type's destructor is trivial) and the reference outlives the result; refuted for throwing copies, failing allocation, stateful references that die first, and allocators with state (materialize passes the allocator instead of its address: does not compile)."
  },
  {
   "property": "C19",
   "status": "partial",
   "theorems": [
    "C19_force_stable_pointers_partial",
    "C19_allocation_failure_terminates_refuted"
   ],
   "note": "Outcomes characterised for all inputs; refuted: std::terminate when allocation fails for small nothrow types."
  },
  {
   "property": "C20",
   "status": "partial",
   "theorems": [
    "C20_contained_objects_aligned_partial",
    "C20_buffer_never_misaligned",
    "C20_over_aligned_misplaced_refuted"
   ],
   "note": "Holds for types not over-aligned and for everything in a buffer; refuted for every over-aligned type."
  },
  {
   "property": "C21",
   "status": "partial",
   "theorems": [
    "C21_emplace_from_other_partial",
    "C21_emplace_from_self_refuted"
   ],
   "note": "Proved for values of other objects; refuted for a reference into the object itself."
  },
  {
   "property": "C22",
   "status": "proved",
   "theorems": [
    "C22_other_objects_unchanged",
    "C22_programs_touch_only_what_they_name"
   ],
   "note": ""
  },
  {
   "property": "C23",
   "status": "proved",
   "theorems": [
    "C23_any_cast",
    "C23_any_cast_of_views"
   ],
   "note": "Assumes distinct types have distinct compiler spellings (C41)."
  },
  {
   "property": "C24",
   "status": "proved",
   "theorems": [
    "C24_equal_to",
    "C24_laws",
    "C24_equal_to_of_references"
   ],
   "note": "Assumes distinct types have distinct compiler spellings (C41)."
  },
  {
   "property": "C25",
   "status": "partial",
   "theorems": [
    "C25_spaceship_partial",
    "C25_spaceship_of_references",
    "C25_empty_on_the_right_undefined",
    "C25_defined_for_all_pairs_refuted"
   ],
   "note": "Proved for references and for anys unless the left has a value and the right is empty; that case is refuted (undefined behaviour: the vtable of the empty any is read)."
  },
  {
   "property": "C26",
   "status": "proved",
   "theorems": [
    "C26_hash",
    "C26_hash_of_references",
    "C26_equal_values_hash_equal",
    "C26_equivalent_values_hash_equal"
   ],
   "note": ""
  },
  {
   "property": "C27",
   "status": "proved",
   "theorems": [
    "C27_type_descriptor_of_any",
    "C27_type_descriptor_of_views"
   ],
   "note": ""
  },
  {
   "property": "C28",
   "status": "proved",
   "theorems": [
    "C28_address_of_any",
    "C28_address_of_const_any",
    "C28_dereferenced_pointer_acts_on_the_value",
    "C28_pointer_equality"
   ],
   "note": ""
  },
  {
   "property": "C29",
   "status": "proved",
   "theorems": [
    "C29_dispatch_through_conversions",
    "C29_dispatch_on_any_content"
   ],
   "note": ""
  },
  {
   "property": "C30",
   "status": "partial",
   "theorems": [
    "C30_view_reads_right_entry_partial",
    "C30_uniform_alignment_partial",
    "C30_library_methods_partial",
    "C30_mixed_sizes_refuted"
   ],
   "note": "Proved when the start of the view is aligned for all entries of the view, in particular when all entries have the same size and alignment or are the library's own methods; refuted for lists mixing empty visitor vtables with larger entries."
  },
  {
   "property": "C31",
   "status": "proved",
   "theorems": [
    "C31_stateful_reference"
   ],
   "note": ""
  },
  {
   "property": "C32",
   "status": "proved",
   "theorems": [
    "C32_find_subsequence_is_first_occurrence",
    "C32_has_subsequence_iff_contiguous",
    "C32_has_subset_iff_inclusion"
   ],
   "note": ""
  },
  {
   "property": "C33",
   "status": "proved",
   "theorems": [
    "C33_change_all_and_only",
    "C33_invoke_after_change"
   ],
   "note": ""
  },
  {
   "property": "C34",
   "status": "proved",
   "theorems": [
    "C34_flatten_is_inorder_leaves",
    "C34_flatten_sound",
    "C34_flatten_idempotent"
   ],
   "note": ""
  },
  {
   "property": "C35",
   "status": "proved",
   "theorems": [
    "C35_without_duplicates"
   ],
   "note": ""
  },
  {
   "property": "C36",
   "status": "proved",
   "theorems": [
    "C36_filtered_by"
   ],
   "note": ""
  },
  {
   "property": "C37",
   "status": "proved",
   "theorems": [
    "C37_append_concatenates",
    "C37_equivalent_to_is_equality",
    "C37_subsumes_is_contiguous",
    "C37_subsumption_order"
   ],
   "note": ""
  },
  {
   "property": "C38",
   "status": "proved",
   "theorems": [
    "C38_any_with_destroy_and_interface_of"
   ],
   "note": ""
  },
  {
   "property": "C39",
   "status": "proved",
   "theorems": [
    "C39_plugins_inherited_once"
   ],
   "note": ""
  },
  {
   "property": "C40",
   "status": "proved",
   "theorems": [
    "C40_order_of_names",
    "C40_equality_of_names",
    "C40_equality_iff_order_equal",
    "C40_comparison_is_a_total_order",
    "C40_total_order",
    "C40_hash"
   ],
   "note": ""
  },
  {
   "property": "C41",
   "status": "partial",
   "theorems": [
    "C41_descriptors_identify_types_partial",
    "C41_descriptors_identify_types_by_address",
    "C41_order_of_descriptors",
    "C41_default_descriptor_partial",
    "C41_same_spelling_refuted",
    "C41_two_spellings_refuted"
   ],
   "note": "Proved, for gcc, clang and MSVC and descriptors from two translation units, for types the compiler spells differently and consistently up to the class key in front; refuted when two types are spelled alike or one type is spelled in two ways further inside. Without type names (ANYANY_ASSUME_NO_DLLS) proved in full."
  },
  {
   "property": "C42",
   "status": "partial",
   "theorems": [
    "C42_runs_the_matching_overload_partial",
    "C42_nullopt_when_none_matches_partial",
    "C42_order_of_overloads_is_irrelevant",
    "C42_function_pointer_overload_refuted",
    "C42_duplicate_signatures_do_not_compile"
   ],
   "note": "Proved for captureless lambdas, every overload set, and independence of the listing order; refuted for function pointers (Foo{} is a null pointer)."
  },
  {
   "property": "C43",
   "status": "partial",
   "theorems": [
    "C43_only_overloads_of_the_arity_partial",
    "C43_trailing_empty_argument_refuted",
    "C43_ill_called_does_not_compile"
   ],
   "note": "Proved whenever the last argument is not empty/null; refuted for a trailing empty argument, which is indistinguishable from a missing one."
  },
  {
   "property": "C44",
   "status": "proved",
   "theorems": [
    "C44_no_const_violation",
    "C44_nullopt_on_const_mismatch",
    "C44_never_rejects_a_const_correct_call"
   ],
   "note": "Proved for every overload set, constness pattern and argument state; the default Unsafe=true mode asserts instead."
  },
  {
   "property": "C45",
   "status": "partial",
   "theorems": [
    "C45_const_arguments_keep_their_value_partial",
    "C45_by_value_parameter_moves_from_const_refuted"
   ],
   "note": "Proved when bodies respect const and moving from by-value parameters' types changes nothing; refuted for by-value parameters in general: the const argument is moved from."
  },
  {
   "property": "C46",
   "status": "partial",
   "theorems": [
    "C46_runs_first_matching_case_partial",
    "C46_default_when_no_case_matches_partial",
    "C46_void_default_refuted",
    "C46_empty_subject_asserts",
    "C46_empty_any_refuted"
   ],
   "note": "Proved for subjects that hold a value: the first matching case runs once, otherwise the default. Refuted: a void switch with a default does not compile, and an empty subject runs into an assertion instead of the default. type_switch on a poly_ptr does not compile."
  },
  {
   "property": "C47",
   "status": "proved",
   "theorems": [
    "C47_sequence_of_variants",
    "C47_other_types_unchanged",
    "C47_emplace_result",
    "C47_range_insert_ill_formed"
   ],
   "note": "For containers with push_back (vector, list) and for std::set. The overload insert(first, last) cannot be compiled for any type, so no history contains it (C47_range_insert_ill_formed)."
  },
  {
   "property": "C48",
   "status": "proved",
   "theorems": [
    "C48_sizes_agree"
   ],
   "note": ""
  },
  {
   "property": "C49",
   "status": "proved",
   "theorems": [
    "C49_visit_order",
    "C49_visit_all_once",
    "C49_visit_copy"
   ],
   "note": ""
  },
  {
   "property": "C50",
   "status": "partial",
   "theorems": [
    "C50_behaves_as_vector_partial",
    "C50_erase_range_ill_formed"
   ],
   "note": "Proved for all histories of the listed statements, with returned iterators; missing are ranges read through move_iterator not at the end (C52) and erase(b, e), which cannot be compiled (C50_erase_range_ill_formed)."
  },
  {
   "property": "C51",
   "status": "proved",
   "theorems": [
    "C51_columns_have_one_length"
   ],
   "note": "For all histories, moving ranges included."
  },
  {
   "property": "C52",
   "status": "partial",
   "theorems": [
    "C52_range_insert_partial",
    "C52_moving_range_refuted",
    "C52_moving_range_first_row"
   ],
   "note": "Proved for both code paths unless the range moves and pos is not the end; refuted there: the first value is moved from once per field. The exact result is C52_moving_range_first_row."
  },
  {
   "property": "C53",
   "status": "partial",
   "theorems": [
    "C53_compares_first_unequal_field",
    "C53_equality_of_fields_partial",
    "C53_equality_refuted",
    "C53_vector_equality"
   ],
   "note": "Lexicographic comparison and vector == proved; == of elements equals the fields' == only where that agrees with <=>, refuted otherwise, because == is computed from <=>."
  },
  {
   "property": "C54",
   "status": "partial",
   "theorems": [
    "C54_add_and_difference",
    "C54_add_then_subtract_partial",
    "C54_subtract_negative_refuted",
    "C54_order_agrees_with_difference",
    "C54_increment_decrement",
    "C54_subscript",
    "C54_begin_and_end"
   ],
   "note": "All laws proved except it + n - n with negative n when assert is enabled: operator-= compares dif with the index as unsigned and aborts; refuted there for every negative n."
  },
  {
   "property": "C55",
   "status": "partial",
   "theorems": [
    "C55_growth_refuted",
    "C55_exceptions_partial"
   ],
   "note": "Refuted for every vector with two or more fields: an exception after the first column leaves columns of different lengths. Proved: exceptions of the first column, one field, statements that build a temporary or keep the size."
  },
  {
   "property": "C56",
   "status": "proved",
   "theorems": [
    "C56_swap_rows",
    "C56_assign_row"
   ],
   "note": ""
  },
  {
   "property": "C57",
   "status": "proved",
   "theorems": [
    "C57_no_undefined_behaviour",
    "C57_deleted_once_with_own_type",
    "C57_everything_deleted"
   ],
   "note": "std::unique_ptr itself is modelled from the standard; conversions go through release(), because the default_delete types are not convertible to each other."
  },
  {
   "property": "C58",
   "status": "proved",
   "theorems": [
    "C58_visit_one",
    "C58_visit_two",
    "C58_visit_through_views",
    "C58_interfaces"
   ],
   "note": ""
  },
  {
   "property": "C59",
   "status": "partial",
   "theorems": [
    "C59_const_pointer_from_const_any_partial",
    "C59_fewer_methods_rejected_refuted",
    "C59_every_strict_part_rejected"
   ],
   "note": "Holds only for the identical list; refuted for every strict contiguous part because the constraint has its arguments swapped."
  },
  {
   "property": "C60",
   "status": "proved",
   "theorems": [
    "C60_any_cast_of_any",
    "C60_any_cast_of_references"
   ],
   "note": "Assumes distinct types have distinct compiler spellings (C41). The effect of T's own move and copy constructors on values is arbitrary."
  },
  {
   "property": "C61",
   "status": "partial",
   "theorems": [
    "C61_variant_and_objects_partial",
    "C61_valueless_variant_refuted"
   ],
   "note": "Proved for every object and every variant that holds a value; refuted for a valueless variant: std::terminate, because std::visit throws inside the noexcept get_type_descriptor."
  },
  {
   "property": "C62",
   "status": "partial",
   "theorems": [
    "C62_result_has_the_type_of_the_object_partial",
    "C62_array_type_refuted"
   ],
   "note": "Proved for T that is neither an array nor a function type; refuted for arrays: the descriptor is that of the decayed type, so any_cast<int[3]> of an any that holds an int* yields an int(*)[3]."
  },
  {
   "property": "C63",
   "status": "proved",
   "theorems": [
    "C63_invoke_passes_arguments",
    "C63_member_function_passes_arguments",
    "C63_call_operator_passes_arguments"
   ],
   "note": "Parameters of one type; assumes that an object given away is not used by a second argument of the same call."
  },
  {
   "property": "C64",
   "status": "partial",
   "theorems": [
    "C64_const_operands_need_const_methods_partial",
    "C64_const_rvalue_any_refuted",
    "C64_const_methods"
   ],
   "note": "Holds for all operands except a const rvalue any: the overload for U&& is chosen there and has no check, so a method that modifies the value compiles (C64_const_rvalue_any_refuted)."
  },
  {
   "property": "C65",
   "status": "proved",
   "theorems": [
    "C65_field_count",
    "C65_get_refers_to_the_field",
    "C65_get_compiles_up_to_29_fields"
   ],
   "note": "C arrays inside aggregates are excluded, as in the code's comment."
  },
  {
   "property": "C66",
   "status": "partial",
   "theorems": [
    "C66_value_category_partial",
    "C66_rvalue_reference_field_refuted",
    "C66_thirty_fields_refuted"
   ],
   "note": "Proved for all fields except rvalue references in an lvalue aggregate, which are given away as xvalues (refuted); refuted for 30 fields: fields_count_v is 30 but magic_tie has no branch for it (the class comment at P 686 says less than 30)."
  },
  {
   "property": "C67",
   "status": "proved",
   "theorems": [
    "C67_view_by_type",
    "C67_view_by_number",
    "C67_tuple_protocol"
   ],
   "note": "bool_ itself (an internal type) as field type is excluded."
  },
  {
   "property": "C68",
   "status": "proved",
   "theorems": [
    "C68_size_capacity_max_size",
    "C68_no_reallocation_within_capacity",
    "C68_reserve",
    "C68_storage_stays_after_reserve",
    "C68_length_error"
   ],
   "note": "Copying and moving elements does not throw here (C55 has exceptions)."
  },
  {
   "property": "C69",
   "status": "partial",
   "theorems": [
    "C69_row_inserted_and_argument_partial",
    "C69_rvalues_are_copied_refuted",
    "C69_move_only_fields_refuted",
    "C69_iter_move"
   ],
   "note": "The stored row, the state of the argument and iter_move are proved; refuted: emplace and emplace_back copy from their parameters, so every field given as rvalue is copied once, and types with a field that cannot be copied do not compile."
  },
  {
   "property": "C70",
   "status": "partial",
   "theorems": [
    "C70_allocators_partial",
    "C70_assign_refuted",
    "C70_throwing_copy_refuted",
    "C70_elements",
    "C70_storage_freed_by_its_allocator"
   ],
   "note": "Refuted for assign and operator= from a list: the temporary has allocator_type(), so a propagating allocator is replaced and an allocator that cannot be default constructed does not compile. Refuted for a copy assignment that propagates allocators and throws midway: columns keep different allocators. Proved for everything else."
  },
  {
   "property": "C71",
   "status": "partial",
   "theorems": [
    "C71_moves_storage",
    "C71_unequal_allocators",
    "C71_throwing_move_refuted"
   ],
   "note": "Refuted: a move between unequal allocators that throws midway leaves columns of different lengths."
  },
  {
   "property": "C72",
   "status": "partial",
   "theorems": [
    "C72_pointer_variables",
    "C72_comparisons",
    "C72_null_const_pointer_dereferenced_refuted",
    "C72_hashes_partial",
    "C72_hash_of_const_pointers_refuted"
   ],
   "note": "Refuted for the assertion: operator* of a null const_poly_ptr does not assert. Refuted for std::hash of const_poly_ptr: it passes const void* to std::hash<void*> (A 2023) and does not compile. Proved for everything else. nullptr == p, with nullptr on the left, compiles only in C++20."
  },
  {
   "property": "C73",
   "status": "partial",
   "theorems": [
    "C73_reference_variables_partial",
    "C73_assignment_compiles",
    "C73_implicit_rebinding_refuted",
    "C73_view_of_rebound_reference_refuted"
   ],
   "note": "Refuted: x = y compiles and rebinds when y is a const lvalue of x's type, while a y that is not const is rejected. Refuted: rebinding a stateful reference changes the table behind views taken from it with get_view, so calls through them run the new type's method on the old object. Proved for all programs that rebind no stateful reference while such a view is alive, and which assignments compile is proved for all."
  },
  {
   "property": "C74",
   "status": "partial",
   "theorems": [
    "C74_anyany_method_partial",
    "C74_anyany_extern_method_partial",
    "C74_anyany_pseudomethod_partial",
    "C74_comma_in_return_type_refuted",
    "C74_comma_in_value_type_refuted"
   ],
   "note": "Proved for all token lists without names of the header's macros, with matched parentheses, whose return type has no comma outside parentheses; refuted for every return type with such a comma, for instance std::pair<int, char>: AA_IMPL_CONCAT_EXPAND gets too many arguments."
  },
  {
   "property": "C75",
   "status": "partial",
   "theorems": [
    "C75_construction_partial",
    "C75_nothing_else_compiles",
    "C75_never_ambiguous",
    "C75_any_in_any_only_when_asked_partial",
    "C75_traits_agree",
    "C75_allocator_nests_any_refuted",
    "C75_allocator_in_place_refuted",
    "C75_allocator_in_place_arguments_refuted",
    "C75_tag_taken_for_value_refuted"
   ],
   "note": "Refuted: Any(allocator_arg, alloc, any) nests the any (the constructor lacks is_not_polymorphic), so uses-allocator construction of a copy nests; Any(allocator_arg, alloc, in_place_type<T>) stores the tag and with arguments does not compile; Any(in_place_type<T>) with T lacking a method that the tag type has stores the tag. Proved for all other argument lists; C++20, types without conversion functions."
  },
  {
   "property": "C76",
   "status": "partial",
   "theorems": [
    "C76_assignment_partial",
    "C76_never_ambiguous",
    "C76_no_any_in_any",
    "C76_emplace",
    "C76_assigned_tag_makes_object_refuted"
   ],
   "note": "Refuted: any = in_place_type<T> makes an object T() through the converting constructor when the tag itself lacks the methods. Proved for all other right sides."
  },
  {
   "property": "C77",
   "status": "partial",
   "theorems": [
    "C77_methods_as_written_partial",
    "C77_pseudomethods_as_written",
    "C77_exist_for_all",
    "C77_exist_for_any_class",
    "C77_functions_of_any_class",
    "C77_values_of_any_class",
    "C77_no_self_refuted",
    "C77_void_value_refuted",
    "C77_lists_of_methods_partial",
    "C77_nested_list_refuted",
    "C77_not_for_int_refuted",
    "C77_auto_return_refuted"
   ],
   "note": "Refuted: without signature_type the signature is that of do_invoke<int>, so a method whose do_invoke is constrained and not for int has none and no table compiles. Refuted: a deduced return type makes the body of do_invoke compile for int even when signature_type is declared, because all three overloads of get_method_signature are substituted into. Refuted: the concept method rejects nested lists, which any_with accepts. Proved for all other classes of the two forms. Refuted: the concepts accept a signature_type without self and a value_type of void, for which no table compiles. For arbitrary classes it is proved what exist_for asks for, and where a function or value is taken from."
  },
  {
   "property": "C78",
   "status": "partial",
   "theorems": [
    "C78_accepted_types_have_entries_partial",
    "C78_values_have_entries_partial",
    "C78_entry_calls_the_function",
    "C78_const_methods_do_not_modify",
    "C78_entry_matches_slot",
    "C78_entries_in_order",
    "C78_self_by_value_refuted",
    "C78_self_by_rvalue_reference_refuted",
    "C78_argument_by_value_refuted",
    "C78_other_signature_refuted",
    "C78_function_and_value_refuted",
    "C78_overloaded_function_refuted"
   ],
   "note": "Refuted: exist_for holds, so is_constructible says yes, but the table does not compile, when self is taken by value and T cannot be copied, when self is taken by rvalue reference (for every T), when a parameter by value cannot be moved, when signature_type disagrees with do_invoke, and when a class has both do_value and a do_invoke for int. Refuted the other way round: overloaded do_invoke. Proved: for classes of the documented forms exactly when the table compiles; for all classes that const methods do not get a mutable object and that entries fit their slots."
  },
  {
   "property": "C79",
   "status": "proved",
   "theorems": [
    "C79_inherited_plugins"
   ],
   "note": ""
  },
  {
   "property": "C80",
   "status": "proved",
   "theorems": [
    "C80_small_values_never_touch_the_allocator",
    "C80_values_stay_in_the_buffers",
    "C80_allocator_is_not_asked",
    "C80_such_programs_run"
   ],
   "note": "README 276-277. That `basic_any_with<unreachable_allocator, ...>` does not compile when it would allocate is the static counterpart: the functions that name allocate (emplace_in_empty for types that do not fit or when forced, replace_with_bytes, copy_fn for types that do not fit) are the ones excluded here; instantiation itself is not modelled."
  },
  {
   "property": "C81",
   "status": "partial",
   "theorems": [
    "C81_any_exists",
    "C81_storage_of_an_any",
    "C81_static_asserts_hold",
    "C81_copyable_iff_has_its_copy_method",
    "C81_same_copy_method_iff_same_storage",
    "C81_parameters_of_the_class",
    "C81_materialize_gives_back_the_type",
    "C81_materialize_partial",
    "C81_materialize_ill_formed_refuted",
    "C81_materialize_buffer_refuted"
   ],
   "note": "Refuted for materialize with arguments that need adjusting: its return type is basic_any<Alloc, SooS, Methods...>, not basic_any_with. With an allocator of other than bytes, or 0 < SooS < sizeof(size_t), the constraint accepts but a static_assert of the return type fails; with 8 <= SooS < 16 it compiles, but the copy function in the table is one for a 16 byte buffer while the any declares SooS bytes (the union still has 16 because of its alignment). Also noted: basic_any_with<A, S, aa::copy> with other storage than the default compiles and is movable but silently not copyable."
  },
  {
   "property": "C82",
   "status": "partial",
   "theorems": [
    "C82_const_vectors_stay",
    "C82_same_value_and_effect",
    "C82_compiles_as_vector_partial",
    "C82_back_of_const_refuted",
    "C82_iterator_difference_refuted",
    "C82_mixed_comparison_refuted",
    "C82_const_reference_refuted"
   ],
   "note": "Refuted for these forms, true for all others: back() const is declared to return reference and cannot be instantiated (P 441-444); iterator - const_iterator (operator- is a member taking the same iterator type); the conversion of a reference to a const_reference is declared but copies a proxy, whose copy constructor is deleted because proxy declares a move assignment (P 105, 192), so it cannot be instantiated, and with it reference == const_reference; reference <=> const_reference is ambiguous, also written as < etc. (value_type and const_proxy conversions compete). it - n with negative n fails an assert in debug builds (C54), so those expressions are excluded unless NDEBUG. Sizes below 2^63; exceptions of field assignments are in C55."
  },
  {
   "property": "C83",
   "status": "partial",
   "theorems": [
    "C83_structured_bindings_partial",
    "C83_other_allocators_refuted"
   ],
   "note": "Refuted for vectors of which neither the value type nor the allocator has std among its associated namespaces, such as a struct of the user's with std::pmr::polymorphic_allocator: get of vectors is declared in namespace std (P 745-762), structured bindings find it only by argument dependent lookup, and it is not found. Proved for all others and for references. Lifetimes of the columns are in C50-C56; const references as bound objects (const auto [..] = v[0]) are treated as references; a named reference cannot be bound by value (it cannot be copied)."
  },
  {
   "property": "C84",
   "status": "partial",
   "theorems": [
    "C84_nearest_class",
    "C84_arguments_independent",
    "C84_only_mutable_lvalues",
    "C84_overload_for_const_refuted",
    "C84_invocable_tells_refuted"
   ],
   "note": "Refuted: for const T the interface declares an overload but its body passes const T* as void* and does not compile (U 205, 242); operator() and visit are unconstrained templates, so std::invocable holds for every argument. What does compile is characterised: nearest class, mutable lvalues only."
  },
  {
   "property": "C85",
   "status": "partial",
   "theorems": [
    "C85_ordinary_classes_partial",
    "C85_called_is_callable",
    "C85_every_callable_refuted"
   ],
   "note": "Refuted beyond classes with unqualified call operators: the constraint asks for a call of a const rvalue, the body calls a const lvalue (operator() const && is accepted and does not compile, operator() const & with a deleted && is not accepted); std::invocable also holds for pointers to members, which visit_fn cannot call."
  },
  {
   "property": "C86",
   "status": "proved",
   "theorems": [
    "C86_insert_nearest_type",
    "C86_inserter_compiles",
    "C86_inserter_inserts"
   ],
   "note": "Conversions are given by their rank; ranking of two uses of one conversion function, braced lists and valueless variants are left out."
  },
  {
   "property": "C87",
   "status": "partial",
   "theorems": [
    "C87_made_from",
    "C87_never_ambiguous",
    "C87_const_is_kept",
    "C87_const_from_all_partial",
    "C87_const_from_all_refuted",
    "C87_does_not_compile",
    "C87_constraints_tell_refuted",
    "C87_void_refuted"
   ],
   "note": "False as stated: const_poly_ptr takes a pointer to an any only if the list is the same (the constraint at A 762-763 has its arguments the other way round than A 682-683) and no pointers to views, so that const_poly_ptr<print> p = std::addressof(any) fails for an any with more methods; with more methods than the any has the constraint holds but the body does not compile; poly_ptr is made from void*."
  },
  {
   "property": "C88",
   "status": "partial",
   "theorems": [
    "C88_table_of_the_object_partial",
    "C88_table_of_arrays",
    "C88_arrays_without_decay_refuted",
    "C88_no_references_to_functions",
    "C88_no_pointers_to_functions",
    "C88_functions_without_decay_refuted"
   ],
   "note": "False as stated: the table is always that of the decayed type, so for arrays it is the table of a pointer applied to the array; functions do not convert to void*."
  },
  {
   "property": "C89",
   "status": "partial",
   "theorems": [
    "C89_methods_of_the_view",
    "C89_none_otherwise",
    "C89_pointers_to_anys",
    "C89_methods_of_the_any_refuted"
   ],
   "note": "False for pointers to anys: an empty list is deduced. A pack that is not deduced is taken to be empty, as compilers do."
  },
  {
   "property": "C90",
   "status": "proved",
   "theorems": [
    "C90_observers_write_nothing",
    "C90_views_write_nothing",
    "C90_constructing_keeps_old_memory",
    "C90_programs_write_only_what_they_name"
   ],
   "note": "The user's operator==, hash etc. are taken to write nothing. Stateful references are objects of their own: making one is covered by C90_constructing_keeps_old_memory. Memory effects are those of the model: the absence of conflicting writes, not the C++ memory model. Writing the value that is already there is not seen as a write."
  },
  {
   "property": "C91",
   "status": "proved",
   "theorems": [
    "C91_budget",
    "C91_constructed_in_place",
    "C91_move_construction_steals",
    "C91_move_assignment_steals"
   ],
   "note": "A relocation by memcpy counts as one construction. Arguments of the user's constructor are not counted."
  },
  {
   "property": "C92",
   "status": "partial",
   "theorems": [
    "C92_built_in_place",
    "C92_moved",
    "C92_copied",
    "C92_programs_partial",
    "C92_move_assignment_refuted",
    "C92_programs_refuted",
    "C92_copy_assignment_refuted",
    "C92_conversion_refuted",
    "C92_destroyed_by_the_allocator_refuted"
   ],
   "note": "Refuted where allocators differ and do not propagate: after a = std::move(b), a = b or a converting move the value in a still uses the resource of b (or the one its copy constructor selects), while a.get_allocator() is another; when that resource is destroyed, as b's user may, a is left with a value without memory. Also refuted: objects made by allocator_traits::construct are destroyed by their destructor directly, allocator_traits::destroy is never called. Proved for values built in place, and for all programs without such transfers. Exceptions are not in this model."
  },
  {
   "property": "C93",
   "status": "partial",
   "theorems": [
    "C93_members_apart",
    "C93_buffer_apart",
    "C93_value_in_buffer",
    "C93_size",
    "C93_useless_memory_partial",
    "C93_useless_memory_refuted",
    "C93_views",
    "C93_stateful"
   ],
   "note": "Refuted: soo_buffer_size is commented 'SooS uses all padding it can (so no useless memory)', but the union is aligned to 16 and sizes above 16 are not rounded up; the default any (40 bytes of buffer) has 8 bytes of 64 that nothing uses. Proved: memory is useless exactly when the buffer size is not a multiple of 16. The layout rule is that of the Itanium ABI and is part of what is trusted."
  },
  {
   "property": "C94",
   "status": "proved",
   "theorems": [
    "C94_depends_only_on_what_it_names",
    "C94_interleavings",
    "C94_alike_means_same_values"
   ],
   "note": "Interleavings are of whole operations; that two operations running at once do not touch the same memory is C90. Failures belong to the operation (the k-th action of it that may throw throws or not), so that they do not depend on what else runs. The user's functions are those of AnyModel: they see the value, not its address."
  },
  {
   "property": "C95",
   "status": "proved",
   "theorems": [
    "C95_behaves_as_optional_values",
    "C95_storage_does_not_matter",
    "C95_same_for_all_storage_when_only_methods_throw"
   ],
   "note": "Which programs are legal may depend on the environment (a type whose move throws needs the heap; an OSwap needs move methods if there is a buffer), so legality is asked for in each of the two. materialize from a stateful reference is left out of the programs, as a reference keeps an address and not a value. Assignments that throw between allocators neither always equal nor propagating are excluded in the theorems by hypothesis; what is lost there is C08's refutation."
  },
  {
   "property": "C96",
   "status": "partial",
   "theorems": [
    "C96_anys_in_anys_are_trees_partial",
    "C96_no_memory_is_lost",
    "C96_moves_make_nothing",
    "C96_moving_out_of_the_own_value_refuted",
    "C96_moving_into_the_own_value_refuted"
   ],
   "note": "Refuted: x = std::move(x.child) empties x, and with it the child, before the child is read (A 1219-1227), so it is undefined behaviour. Refuted: x.child = std::move(x) makes the value own itself and leaks it. All other operations are proved, copy assignment from and into the own value included. Emplacing from the old value is excluded as in the standard library. Value semantics of the struct only; allocators always equal."
  },
  {
   "property": "C97",
   "status": "partial",
   "theorems": [
    "C97_values_get_the_allocator_partial",
    "C97_other_allocators_are_not_used",
    "C97_what_can_be_made",
    "C97_in_place_passes_the_allocator_on",
    "C97_anys_are_nested",
    "C97_never_ambiguous",
    "C97_copying_an_any_refuted",
    "C97_moving_an_any_refuted",
    "C97_in_place_arguments_refuted",
    "C97_in_place_compiles_refuted",
    "C97_in_place_without_arguments_refuted"
   ],
   "note": "Refuted: copying or moving an any this way nests it in the new any; in_place_type<T> with arguments passes the allocator to T and not to the any, and does not compile when T takes none; in_place_type<T> alone stores the tag. Proved for no argument and for values that are neither anys, references, nor tags, and a complete list of results for everything else. Classes derived from anys are not covered (uses_allocator is false for them)."
  },
  {
   "property": "C98",
   "status": "partial",
   "theorems": [
    "C98_noexcept_operations_return_partial",
    "C98_other_operations_can_throw_partial",
    "C98_move_constructors_cannot_throw",
    "C98_move_construction_noexcept_refuted",
    "C98_converting_move_noexcept_refuted",
    "C98_move_assignment_without_buffer_refuted",
    "C98_force_stable_pointers_refuted",
    "C98_same_constructor_never_terminates",
    "C98_constructor_chosen_by_allocator_refuted"
   ],
   "note": "Refuted, too strong: force_stable_pointers (C19); construct_value is noexcept if T(args...) is, but std::pmr::polymorphic_allocator calls T(args..., alloc), which may throw (a pmr::string moved into an any with another resource): std::terminate. Refuted, too weak: both move constructors are noexcept(movable_alloc()) and never throw for any allocator; move assignment without buffer does not throw either. Proved for all other operations. The default constructor is the one with an allocator."
  },
  {
   "property": "C99",
   "status": "partial",
   "theorems": [
    "C99_growth_keeps_elements",
    "C99_growth_moves_partial",
    "C99_growth_copies_refuted",
    "C99_growth_throws_refuted",
    "C99_push_back",
    "C99_push_back_rvalue_partial",
    "C99_push_back_loses_the_value_refuted",
    "C99_erase"
   ],
   "note": "Refuted for copyable anys whose allocator is neither always equal nor propagating (std::pmr::polymorphic_allocator): the move constructor is not declared noexcept although it cannot throw (C98), so std::vector copies: growth may throw, allocates, moves values on the heap to other addresses, and the copies use select_on_container_copy_construction (the default resource); push_back(std::move(a)) that throws has destroyed a's value. Proved for all other anys, and that elements survive for all."
  },
  {
   "property": "C100",
   "status": "proved",
   "theorems": [
    "C100_unordered_set",
    "C100_contains",
    "C100_insert",
    "C100_erase",
    "C100_rehash"
   ],
   "note": ""
  },
  {
   "property": "C101",
   "status": "partial",
   "theorems": [
    "C101_set_partial",
    "C101_find_partial",
    "C101_insert_partial",
    "C101_erase_partial",
    "C101_other_types_refuted",
    "C101_weak_order_refuted",
    "C101_empty_key_undefined"
   ],
   "note": "Refuted as a claim about anys: values of different types are unordered, so that each is 'equivalent' to every value of the other type. < is then no strict weak order (equivalence is not transitive), and std::set refuses a value of another type although no element equals it; and finding or inserting an empty any in a set with elements is undefined behaviour (C25). Proved for sets whose values have one type."
  },
  {
   "property": "C102",
   "status": "partial",
   "theorems": [
    "C102_programs_as_vectors_partial",
    "C102_auto_variable_refuted"
   ],
   "note": "Refuted for auto x = v[i]: x is a proxy and changes with the vector, so that the usual exchange through a variable loses a row (for every vector and every two different rows). Proved for all other programs; what data_parallel_vector lacks (C50, C52, C82) is left out by vruns. Iterators kept in variables are kept as positions."
  },
  {
   "property": "C103",
   "status": "proved",
   "theorems": [
    "C103_sort",
    "C103_erase_if"
   ],
   "note": "The algorithms are written in the language of C102, not those of the standard library. Comparisons of fields are total orders (total_order)."
  },
  {
   "property": "C104",
   "status": "partial",
   "theorems": [
    "C104_algorithms_move_values",
    "C104_values_are_not_duplicated",
    "C104_reverse",
    "C104_sort_partial",
    "C104_other_types_refuted",
    "C104_empty_anys_refuted"
   ],
   "note": "The claim about sorting is refuted for anys of several types (unordered values keep an any before a lesser one) and for empty anys (undefined behaviour, C25); proved for values of one type. The other claims are proved in full."
  },
  {
   "property": "C105",
   "status": "partial",
   "theorems": [
    "C105_construction_partial",
    "C105_assignment",
    "C105_cpp17_is_cpp20",
    "C105_cpp20_is_cpp17_partial",
    "C105_cpp20_is_cpp17_refuted",
    "C105_never_ambiguous",
    "C105_traits_of_construction_cpp20",
    "C105_traits_of_assignment_cpp20_partial",
    "C105_move_assignable_refuted",
    "C105_traits_never_deny",
    "C105_traits_of_copy_cpp17_refuted",
    "C105_traits_of_move_cpp17_refuted",
    "C105_exist_for_cpp17_refuted",
    "C105_vector_grows_cpp20",
    "C105_vector_grows_cpp17_partial",
    "C105_vector_grows_cpp17_refuted",
    "C105_hash_cpp20",
    "C105_hash_cpp17_refuted"
   ],
   "note": "What compiles in C++17 compiles in C++20 with the same meaning; the converse is refuted for a lone in_place_type tag of a type whose traits claim too much (C++20 stores the tag). In C++17 the traits are refuted: every any says it can be copied and moved, exist_for and std::hash say so too, and a vector of anys that can only be moved, with an allocator that does not propagate, does not compile when it grows. In both standards move assignment of an any without buffer, move and copy, with such an allocator, is said to exist and does not compile. Proved otherwise."
  },
  {
   "property": "C106",
   "status": "partial",
   "theorems": [
    "C106_copy",
    "C106_move",
    "C106_destroy",
    "C106_copy_assign_partial",
    "C106_copy_assign_strong_refuted",
    "C106_self_copy_assign",
    "C106_move_assign",
    "C106_self_move_assign",
    "C106_assign_by_copy_partial",
    "C106_assign_by_copy_refuted",
    "C106_swap"
   ],
   "note": "Refuted for exceptions in assignment: the memberwise copy assignment keeps the members assigned before the exception; copy-then-move assignment leaves the object as it was if allocators are always equal or propagate, otherwise (std::pmr::polymorphic_allocator) the move assignment can throw and the value of a member is lost. Proved otherwise; assignments and swap for allocators that are always equal or propagate."
  },
  {
   "property": "C107",
   "status": "partial",
   "theorems": [
    "C107_lookup_is_logarithmic",
    "C107_recorded_comparison_is_the_comparison",
    "C107_every_sort_gives_the_table",
    "C107_const_check_scans_the_overloads",
    "C107_checked_call_logarithmic_refuted"
   ],
   "note": "Proved for the lookup, which is all an unchecked call compares; refuted for checked calls (Unsafe = false, or assertions enabled): runtime_const_correctness_check looks the winner up again by a linear scan over all overloads."
  },
  {
   "property": "C108",
   "status": "partial",
   "theorems": [
    "C108_only_whole_pointers_are_read",
    "C108_compare_exchange_partial",
    "C108_compare_exchange_is_not_equality_refuted",
    "C108_one_thread_installs",
    "C108_one_thread_installs_into_any_null_refuted",
    "C108_updates_are_serial",
    "C108_weak_successes_are_serial",
    "C108_weak_updates_are_serial",
    "C108_exchange_hands_over"
   ],
   "note": "compare_exchange that succeeds found an equal pointer; the converse is refuted: a pointer made from an any and narrowed uses a part of the larger table, one made from the object itself its own table, and they are ==; nullptr and a pointer made from a null T* are both null with different words, and then nobody can install a pointer where nullptr is expected. Sequential consistency only; a spurious failure of compare_exchange_weak is taken to read the pointer that is there; padding-free layout is C93."
  },
  {
   "property": "C109",
   "status": "proved",
   "theorems": [
    "C109_heap_value_is_followed",
    "C109_pointers_act_on_it",
    "C109_calls_as_through_the_any",
    "C109_lifetime",
    "C109_constructions_keep_it",
    "C109_assignment_needs_allocators_refuted"
   ],
   "note": "Proved as stated. The condition on allocators for assignments and swaps is necessary: the refuted theorem is a move assignment between unequal, not propagating allocators, which makes another object (see C13). Values in the buffer move; their pointers are C13 and C24."
  },
  {
   "property": "C110",
   "status": "proved",
   "theorems": [
    "C110_map_finds",
    "C110_map_goes_on",
    "C110_map_iterates",
    "C110_unordered_map_finds",
    "C110_unordered_map_goes_on",
    "C110_unordered_map_iterates",
    "C110_registry",
    "C110_unordered_registry",
    "C110_handlers_of_anys",
    "C110_handlers_of_views"
   ],
   "note": "std::map needs operator<, so C++20; comparison by addresses (AA_CANT_GET_TYPENAME) is C41. The registry theorems have the hypotheses of C41 about the spelling of types. Memory of the nodes and exceptions of X are not modelled."
  }
 ]
}