{"id": "C01", "title": "Any history of any_with operations is memory safe", "statement": "With an allocator whose instances are always interchangeable, no sequence of constructions, copies, moves, assignments, emplaces, resets, destroy_value / replace_with_bytes calls, method invocations and destructions of any_with objects (including operations that end in an exception) ever reads or destroys an object that is not there, constructs over a live object, frees a block twice, frees with the wrong size, or calls through a null or wrong vtable entry.", "quantifier": "every finite history of public operations on any number of any_with objects, every stored type (size, triviality, nothrow-ness), every buffer size, every pattern of throwing constructors and failing allocations; stored types are not over-aligned (C20), arguments do not refer into the value being replaced (C21), references are used only while what they denote lives and results of materialize only while the stateful reference does (C18)", "why_tests_cant": "unbounded histories, types and exception points; a test exercises a handful of sequences", "anchors": ["include/anyany/anyany.hpp: basic_any", "include/anyany/noexport/anyany_details.hpp: copy_fn, relocate"]}
{"id": "C02", "title": "No memory is leaked and every block is freed once with its own size", "statement": "At every point of every history each block obtained from the allocator and not yet returned belongs to exactly one any_with object; once all any_with objects are destroyed nothing allocated remains, every block was returned exactly once and with exactly the size it was requested with.", "quantifier": "every finite history of public operations on any number of any_with objects, every stored type (size, triviality, nothrow-ness), every buffer size, every pattern of throwing constructors and failing allocations; stored types are not over-aligned (C20), arguments do not refer into the value being replaced (C21), references are used only while what they denote lives and results of materialize only while the stateful reference does (C18)", "why_tests_cant": "leaks only on particular exception/move paths; must hold on all of them", "anchors": ["include/anyany/anyany.hpp: basic_any::deallocate_memory, emplace_in_empty, move_value_from", "include/anyany/noexport/anyany_details.hpp: copy_fn"]}
{"id": "C03", "title": "Every contained object is destroyed exactly once", "statement": "For types with a non-trivial destructor, over every history the number of destructor runs never exceeds the number of completed constructions (including the move constructions done internally), the difference is exactly the number of currently contained objects, and it is zero when all any_with objects are gone.", "quantifier": "every finite history of public operations on any number of any_with objects, every stored type (size, triviality, nothrow-ness), every buffer size, every pattern of throwing constructors and failing allocations; stored types are not over-aligned (C20), arguments do not refer into the value being replaced (C21), references are used only while what they denote lives and results of materialize only while the stateful reference does (C18)", "why_tests_cant": "counts over unbounded histories with exceptions", "anchors": ["include/anyany/anyany.hpp: basic_any::destroy_value, destroy, move", "include/anyany/noexport/anyany_details.hpp: relocate, destroy_at"]}
{"id": "C04", "title": "Copy construction yields an equal independent value", "statement": "After any_with b = a, b holds a value of the same dynamic type and equal to a's (or both are empty), a is unchanged, b's storage is distinct from a's, and later modification of one through invoke/emplace/reset does not change the other.", "quantifier": "all source states (empty, in buffer, on heap), types, sizes, allocators", "why_tests_cant": "the copy path is chosen per type and buffer size; independence is over all later operations", "anchors": ["include/anyany/anyany.hpp: basic_any(const basic_any&)", "include/anyany/noexport/anyany_details.hpp: copy_fn, trivial_copy_small_fn, trivial_copy_big_fn"]}
{"id": "C05", "title": "Move transfers the value and empties the source", "statement": "After move construction or move assignment (of distinct objects) the destination holds exactly what the source held, the source does not contain a value, and the destination's old value is destroyed; self move assignment changes nothing.", "quantifier": "all pairs of states (empty/buffer/heap/heap-without-value) of source and destination, all allocator traits; states reached without freeing through an unequal allocator (C16)", "why_tests_cant": "the move code has a path for every state pair", "anchors": ["include/anyany/anyany.hpp: basic_any(basic_any&&), operator=(basic_any&&), move_value_from"]}
{"id": "C06", "title": "Copy assignment yields an equal value", "statement": "After a = b without exception a holds a value of the same type equal to b's (or is empty iff b is), b is unchanged; a = a leaves a's value as it was.", "quantifier": "all pairs of states, all types, all allocator traits; states reached without freeing through an unequal allocator (C16)", "why_tests_cant": "many state pairs and alias case", "anchors": ["include/anyany/anyany.hpp: operator=(const basic_any&)"]}
{"id": "C07", "title": "Constructors give the strong exception guarantee", "statement": "If constructing an any_with (from a value, in place, by copy, forced-stable, converting) throws, no memory stays allocated, no object stays alive and every other object is exactly as before.", "quantifier": "every finite history of public operations on any number of any_with objects, every stored type (size, triviality, nothrow-ness), every buffer size, every pattern of throwing constructors and failing allocations; stored types are not over-aligned (C20), arguments do not refer into the value being replaced (C21), references are used only while what they denote lives and results of materialize only while the stateful reference does (C18)", "why_tests_cant": "every allocation and constructor call is a possible throw point", "anchors": ["include/anyany/anyany.hpp: basic_any constructors, emplace_in_empty", "include/anyany/noexport/anyany_details.hpp: copy_fn, scope_failure"]}
{"id": "C08", "title": "Copy/move assignment gives the strong exception guarantee", "statement": "README: all copy/move assignment operators have the strong exception guarantee: if an assignment throws, the destination still holds its old value and the source is unchanged.", "quantifier": "all states, types, allocator traits and throw points", "why_tests_cant": "needs every throw point on every path", "anchors": ["include/anyany/anyany.hpp: operator=(basic_any&&), operator=(const basic_any&)", "README.md"]}
{"id": "C09", "title": "emplace: value on success, empty on failure", "statement": "emplace<T>(args) / any = value: on success the object holds exactly the new T and the old value was destroyed; if an exception is thrown the object is empty (and still usable), nothing leaks, and no other object changed.", "quantifier": "all prior states (empty, buffer, heap with sufficient or insufficient memory), all types, all throw points", "why_tests_cant": "state x size x throw point combinations", "anchors": ["include/anyany/anyany.hpp: emplace, emplace_decayed, emplace_in_empty, construct_value"]}
{"id": "C10", "title": "reset and destroy_value postconditions", "statement": "After reset() the object is empty and owns no memory; after destroy_value() it is empty but owned memory is kept; both never throw and are idempotent.", "quantifier": "all reachable states", "why_tests_cant": "all reachable states", "anchors": ["include/anyany/anyany.hpp: reset, destroy_value"]}
{"id": "C11", "title": "replace_with_bytes guarantees capacity", "statement": "After replace_with_bytes(n) without exception the object is empty and capacity() >= n; a following emplace of a type with sizeof <= n performs no allocation when the memory is heap memory; if it throws, the object is empty and the old memory is still owned.", "quantifier": "all states, all n, all allocation failures", "why_tests_cant": "unbounded n and states", "anchors": ["include/anyany/anyany.hpp: replace_with_bytes, capacity"]}
{"id": "C12", "title": "sizeof_now bounds the value size", "statement": "sizeof_now() is 0 for an empty object; otherwise it is at least sizeof the contained value and equals capacity().", "quantifier": "all reachable states and types", "why_tests_cant": "all reachable states", "anchors": ["include/anyany/anyany.hpp: sizeof_now"]}
{"id": "C13", "title": "Pointers to heap values survive moves", "statement": "If is_stable_pointers() is true, a poly_ptr/poly_ref taken to the value before moving the any_with (construct or assign) is valid afterwards and points to the value now held by the destination; force_stable_pointers construction and SooS == 0 make is_stable_pointers() true for every held value.", "quantifier": "all states, types and allocator traits", "why_tests_cant": "depends on which move path runs", "anchors": ["include/anyany/anyany.hpp: is_stable_pointers, move_value_from, force_stable_pointers_t"]}
{"id": "C14", "title": "Moves never throw or terminate", "statement": "With allocators that are always equal or propagate on move assignment, move construction and move assignment never throw, never request memory from the allocator and never terminate the program, whatever the stored type.", "quantifier": "all states and types, also types with throwing move constructors", "why_tests_cant": "must hold for all stored types", "anchors": ["include/anyany/anyany.hpp: basic_any(basic_any&&), operator=(basic_any&&)"]}
{"id": "C15", "title": "Small values never allocate", "statement": "Constructing from, copying or moving a value whose type is nothrow movable, suitably aligned and no larger than the buffer never asks the allocator for memory; conversely other types are never placed in the buffer.", "quantifier": "all types, buffer sizes and states", "why_tests_cant": "all sizes", "anchors": ["include/anyany/anyany.hpp: any_is_small_for, emplace_in_empty", "include/anyany/noexport/anyany_details.hpp: is_fits_in_soo_buffer, copy_fn"]}
{"id": "C16", "title": "Stateful allocators: memory is returned to the allocator it came from", "statement": "For any allocator traits (always_equal, propagate_on_container_move/copy_assignment, select_on_container_copy_construction) and any allocator values, every block an any_with frees is given to an allocator equal to the one that allocated it.", "quantifier": "all histories, allocator traits, allocator values, buffer sizes including 0", "why_tests_cant": "combinations of traits and unequal allocators", "anchors": ["include/anyany/anyany.hpp: operator=(basic_any&&), operator=(const basic_any&), move_value_from"]}
{"id": "C17", "title": "Conversion to an any with fewer methods keeps the value and its behaviour", "statement": "Copy/move constructing an any_with from one with more methods (contiguous subsequence) yields the same value with the same dynamic type; every method of the smaller interface then dispatches to that type's implementation; the moved-from source is empty; memory is released through an equal allocator.", "quantifier": "all pairs of method lists in subsequence relation, all states, types, allocators", "why_tests_cant": "all pairs of interfaces", "anchors": ["include/anyany/anyany.hpp: transmutate constructors, subtable_ptr"]}
{"id": "C18", "title": "materialize creates an owning copy of the referenced value", "statement": "materialize(ref) returns an any_with holding a copy of the referenced value with the same dynamic type; if the copy throws the exception propagates and nothing is leaked or corrupted; the result stays usable after the reference is gone.", "quantifier": "all reference kinds (poly_ref, const_poly_ref, stateful refs), types and throw points", "why_tests_cant": "throw points and lifetimes", "anchors": ["include/anyany/anyany.hpp: materialize, AA_DECLARE_MATERIALIZE"]}
{"id": "C19", "title": "force_stable_pointers constructor reports allocation failure as an exception", "statement": "any_with(force_stable_pointers, value) either yields an object with heap-stored value or propagates the exception thrown by allocation / construction.", "quantifier": "all types and allocation failures", "why_tests_cant": "depends on noexcept computation per type", "anchors": ["include/anyany/anyany.hpp: basic_any(force_stable_pointers_t, ...)"]}
{"id": "C20", "title": "Contained objects are suitably aligned", "statement": "An object stored in an any_with is placed at an address aligned for its type.", "quantifier": "all types including over-aligned", "why_tests_cant": "over-aligned types, allocator dependent", "anchors": ["include/anyany/anyany.hpp: emplace_in_empty", "include/anyany/noexport/anyany_details.hpp: copy_fn, is_fits_in_soo_buffer"]}
{"id": "C21", "title": "Assigning from a reference to a contained value", "statement": "a.emplace<T>(x) / a = x where x refers to the value held by another any_with copies it; and a = x where x refers to the value held by a itself behaves as for std::any.", "quantifier": "all states and aliasing patterns", "why_tests_cant": "aliasing patterns", "anchors": ["include/anyany/anyany.hpp: emplace_decayed, operator=(V&&)"]}
{"id": "C22", "title": "Operations affect only the named objects", "statement": "No operation on an any_with changes the dynamic type, value or address of the value of an any_with not named in the call.", "quantifier": "every finite history of public operations on any number of any_with objects, every stored type (size, triviality, nothrow-ness), every buffer size, every pattern of throwing constructors and failing allocations; stored types are not over-aligned (C20), arguments do not refer into the value being replaced (C21), references are used only while what they denote lives and results of materialize only while the stateful reference does (C18)", "why_tests_cant": "global frame property over all histories", "anchors": ["include/anyany/anyany.hpp: basic_any"]}
{"id": "C23", "title": "any_cast succeeds exactly on the dynamic type", "statement": "any_cast<T> on an any_with, poly_ptr or poly_ref yields a pointer/reference to the contained object iff the object is non-empty and its dynamic type is (decayed) T, otherwise nullptr / bad_cast; it never yields a pointer to storage without a T object.", "quantifier": "all reachable states, all requested types, every chain of conversions; types whose compiler spellings differ (C41)", "why_tests_cant": "all type pairs and states", "anchors": ["include/anyany/anyany.hpp: any_cast_fn, type_info"]}
{"id": "C24", "title": "operator== with equal_to", "statement": "Two any_with are equal iff both are empty, or both hold values of the same dynamic type that compare equal; == is reflexive/symmetric/transitive whenever the stored types' == is.", "quantifier": "all pairs of reachable states, anys and references obtained by any conversions; types whose compiler spellings differ (C41)", "why_tests_cant": "all pairs", "anchors": ["include/anyany/anyany.hpp: equal_to::plugin::operator=="]}
{"id": "C25", "title": "operator<=> with spaceship", "statement": "a <=> b is equivalent if both are empty, unordered if exactly one is empty or the dynamic types differ, otherwise the result of the stored values' <=>; it is defined for all pairs; a == b iff a <=> b is equivalent.", "quantifier": "all pairs of reachable states including empty ones; types whose compiler spellings differ (C41)", "why_tests_cant": "all pairs", "anchors": ["include/anyany/anyany.hpp: spaceship::plugin::operator<=>"]}
{"id": "C26", "title": "std::hash of any_with", "statement": "The hash of an empty any_with is 0 and otherwise the hash of the stored value; any_with comparing equal have equal hashes when the stored types satisfy that.", "quantifier": "all states and types", "why_tests_cant": "all pairs", "anchors": ["include/anyany/anyany.hpp: std::hash<basic_any>"]}
{"id": "C27", "title": "type_descriptor reports the dynamic type", "statement": "type_descriptor() of a non-empty any_with/poly_ref is the descriptor of the stored type and descriptor_v<void> for an empty any_with or null poly_ptr, through every conversion.", "quantifier": "all reachable states and conversions", "why_tests_cant": "all states", "anchors": ["include/anyany/anyany.hpp: type_info::plugin, poly_ptr::type_descriptor"]}
{"id": "C28", "title": "poly_ptr/poly_ref denote the contained value", "statement": "&any is null iff any is empty; otherwise it points to the contained value and dereferencing it gives a reference on which methods act on that value; poly_ptr equality is (same address and same dynamic type), an equivalence; equal poly_ptrs have equal hash.", "quantifier": "all states, method lists", "why_tests_cant": "all states", "anchors": ["include/anyany/anyany.hpp: poly_ptr, const_poly_ptr, operator&, std::hash<poly_ptr>"]}
{"id": "C29", "title": "Method dispatch is preserved by every chain of interface conversions", "statement": "Starting from a value of type T, after any chain of implicit conversions between any_with/poly_ref/poly_ptr/const variants/stateful refs with fewer methods, invoke<M> on the result runs exactly T's implementation of M on that very object.", "quantifier": "all types, all method lists, all chains of conversions of any length", "why_tests_cant": "chains are unbounded", "anchors": ["include/anyany/anyany.hpp: vtable::invoke, subtable_ptr_fn, invoke_fn", "include/anyany/noexport/anyany_details.hpp: number_of_first, find_subsequence"]}
{"id": "C30", "title": "A sub-vtable view reads the right bytes", "statement": "The vtable pointer obtained by converting to a contiguous subsequence of methods sees each method's entry at the offset where the full vtable stores it.", "quantifier": "all method lists, all vtable entry sizes and alignments", "why_tests_cant": "layout of all value_type combinations", "anchors": ["include/anyany/anyany.hpp: subtable_ptr_fn", "include/anyany/noexport/anyany_details.hpp: tuple, value_in_tuple"]}
{"id": "C31", "title": "stateful references pick methods by identity, not position", "statement": "stateful::ref/cref built from any reference whose method set includes its own (any order, non-contiguous, duplicates) dispatches each method to the implementation for the referenced type; views obtained with get_view do too.", "quantifier": "all method lists and orders", "why_tests_cant": "all permutations", "anchors": ["include/anyany/anyany.hpp: stateful::ref::FOO, stateful::cref::FOO, get_view"]}
{"id": "C32", "title": "Interface inclusion test is exactly contiguous inclusion", "statement": "A conversion between polymorphic references is offered iff the target's method list is a contiguous sublist of the source's; the position used is the first occurrence.", "quantifier": "all method lists", "why_tests_cant": "all lists", "anchors": ["include/anyany/noexport/anyany_details.hpp: starts_with, find_subsequence, has_subsequence"]}
{"id": "C33", "title": "vtable::change replaces all and only the entries of the method", "statement": "vtable.change<M>(v) makes invoke<M> yield v, sets every duplicate entry of M, and leaves every other method's entry as it was.", "quantifier": "all method lists with duplicates", "why_tests_cant": "all lists", "anchors": ["include/anyany/anyany.hpp: vtable::change"]}
{"id": "C34", "title": "Interface aliases flatten to the in-order list of simple methods", "statement": "any_with/interface_alias built from nested interface aliases denotes the in-order list of leaf methods, independent of nesting; flattening is idempotent.", "quantifier": "all nesting trees of any depth", "why_tests_cant": "unbounded nesting", "anchors": ["include/anyany/noexport/anyany_details.hpp: flatten_types, flatten_type_lists_one_layer"]}
{"id": "C35", "title": "without_duplicates keeps first occurrences", "statement": "interface.without_duplicates() contains each method exactly once, in order of first occurrence, and the same set of methods.", "quantifier": "all lists", "why_tests_cant": "all lists", "anchors": ["include/anyany/noexport/anyany_details.hpp: remove_duplicates", "include/anyany/anyany.hpp: runtime_concept::without_duplicates"]}
{"id": "C36", "title": "filtered_by keeps exactly the matching methods in order", "statement": "filtered_by<Pred> is the order-preserving sublist of methods satisfying Pred.", "quantifier": "all lists and predicates", "why_tests_cant": "all lists", "anchors": ["include/anyany/noexport/anyany_details.hpp: filter_types", "include/anyany/anyany.hpp: runtime_concept::filtered_by"]}
{"id": "C37", "title": "runtime_concept algebra", "statement": "append concatenates (flattened), subsumes is reflexive, transitive and holds for both operands of append; mutual subsumption of interfaces means equal lists; equivalent_to is equality of flattened lists.", "quantifier": "all lists", "why_tests_cant": "all lists", "anchors": ["include/anyany/anyany.hpp: runtime_concept"]}
{"id": "C38", "title": "any_with always has a destructor and interface_of recovers the user's methods", "statement": "The method list any_with really uses always contains destroy, contains all requested methods as a contiguous sublist, and interface_of<any_with<Ms...>> is exactly the flattened Ms..., also when Ms... itself mentions destroy.", "quantifier": "all requested lists", "why_tests_cant": "all lists incl. ones mentioning destroy", "anchors": ["include/anyany/anyany.hpp: insert_into_basic_any, get_interface_of"]}
{"id": "C39", "title": "Plugins are inherited once and overridden ones are dropped", "statement": "construct_interface inherits from each distinct non-void plugin that is not a base of another chosen plugin exactly once; every requested plugin is inherited directly or as a base.", "quantifier": "all plugin lists and inheritance orders", "why_tests_cant": "all lists", "anchors": ["include/anyany/noexport/anyany_details.hpp: inherit_without_duplicates"]}
{"id": "C40", "title": "Descriptor comparison is a total order on type names", "statement": "descriptor_t == and <=> behave as equality and lexicographic order of the type names: reflexive, antisymmetric, transitive, total, == iff <=> equal; equal descriptors have equal hash.", "quantifier": "all type names", "why_tests_cant": "all strings", "anchors": ["include/anyany/type_descriptor.hpp: descriptor_t", "include/anyany/noexport/type_descriptor_details.hpp: strcmp"]}
{"id": "C41", "title": "Descriptors identify types", "statement": "Two types have equal descriptors iff they are the same type after decay.", "quantifier": "all pairs of types in a program, including types of unnamed namespaces in different translation units", "why_tests_cant": "whole-program quantification", "anchors": ["include/anyany/type_descriptor.hpp: descriptor_v", "include/anyany/noexport/type_descriptor_details.hpp: n, descriptor"]}
{"id": "C42", "title": "visit_invoke resolves exactly the overload for the dynamic types", "statement": "resolve(args...) runs the unique overload whose decayed parameter types equal the dynamic types of the arguments (in order) with the addresses of the arguments, and returns nullopt iff there is none; independent of the order in which overloads were listed.", "quantifier": "all overload sets of any size and arity, all argument types", "why_tests_cant": "lookup is binary search over sorted keys: all sizes and orders", "anchors": ["include/anyany/visit_invoke.hpp: visit_invoke_fn::resolve", "include/anyany/noexport/visit_invoke_details.hpp: flat_map"]}
{"id": "C43", "title": "visit_invoke picks only overloads of the call's arity", "statement": "resolve with n arguments never runs an overload taking a different number of parameters.", "quantifier": "all overload sets with mixed arities and all argument states including empty any_with / null poly_ptr", "why_tests_cant": "mixed arities with empty values", "anchors": ["include/anyany/visit_invoke.hpp: resolve, make_key_value_pair_for"]}
{"id": "C44", "title": "visit_invoke const checking", "statement": "resolve<false> returns nullopt rather than binding a const argument to a non-const reference parameter, and never rejects an otherwise matching call that respects const.", "quantifier": "all overload sets and constness patterns", "why_tests_cant": "all patterns", "anchors": ["include/anyany/visit_invoke.hpp: runtime_const_correctness_check", "include/anyany/noexport/visit_invoke_details.hpp: is_const_arg"]}
{"id": "C45", "title": "visit_invoke does not modify const arguments", "statement": "A const argument (or one bound to a by-value or const& parameter) has the same value after resolve as before.", "quantifier": "all parameter kinds and arguments", "why_tests_cant": "depends on parameter kind", "anchors": ["include/anyany/visit_invoke.hpp: match_invoker"]}
{"id": "C46", "title": "type_switch selects the first matching case and runs at most one", "statement": "A chain of case_/cases calls runs the function of the first case whose type is the dynamic type, exactly once, and no other; default_ runs / returns its value iff no case matched; no_default is empty iff no case matched.", "quantifier": "all chains of cases of any length (duplicates included), all dynamic types, void and non-void results", "why_tests_cant": "unbounded chains", "anchors": ["include/anyany/utility.hpp: type_switch_fn"]}
{"id": "C47", "title": "variant_swarm behaves as a sequence of variants grouped by type", "statement": "After any history of insert/emplace/erase/swap the values of type T visible through view<T>, visit and count are exactly those inserted as T and not erased, in insertion order (vector container); operations on one type never affect other types' values.", "quantifier": "all histories, all type lists", "why_tests_cant": "unbounded histories", "anchors": ["include/anyany/variant_swarm.hpp: basic_variant_swarm", "include/anyany/noexport/variant_swarm_details.hpp: inserter"]}
{"id": "C48", "title": "variant_swarm size/empty/count agree", "statement": "size() is the sum of count<T>() over all types, empty() iff size() == 0.", "quantifier": "all histories", "why_tests_cant": "all states", "anchors": ["include/anyany/variant_swarm.hpp: size, empty, count"]}
{"id": "C49", "title": "variant_swarm visit order and output", "statement": "visit<Types...>(v) calls v once for each stored value of those types, in order of Types and then container order; visit_copy writes the results in the same order and returns the advanced iterator; visit_all visits each stored value once.", "quantifier": "all contents, all type selections", "why_tests_cant": "unbounded contents", "anchors": ["include/anyany/variant_swarm.hpp: visit, visit_copy, visit_all"]}
{"id": "C50", "title": "data_parallel_vector behaves as vector<T>", "statement": "Under every sequence of push_back, emplace_back, emplace, insert (single, count, range), erase, pop_back, resize, assign, clear, swap, element assignment, copy and move without exceptions, data_parallel_vector<T> has the same observable contents as std::vector<T>.", "quantifier": "all histories, all field counts >= 1, all contents and positions", "why_tests_cant": "unbounded histories", "anchors": ["include/anyany/data_parallel_vector.hpp: data_parallel_impl"]}
{"id": "C51", "title": "All field columns have the same length", "statement": "At any point of a history without exceptions all field containers have equal size, equal to size(); each view<I> is the column of I-th fields.", "quantifier": "all histories", "why_tests_cant": "invariant over histories", "anchors": ["include/anyany/data_parallel_vector.hpp: parts, size, view"]}
{"id": "C52", "title": "data_parallel_vector range insertion", "statement": "insert(pos, first, last) at any position yields prefix ++ range ++ suffix and returns the iterator to the first inserted element (pos if the range is empty), whichever of its two code paths runs.", "quantifier": "all positions, range lengths, contents", "why_tests_cant": "loop with iterator renewal", "anchors": ["include/anyany/data_parallel_vector.hpp: insert(const_iterator, It, It)"]}
{"id": "C53", "title": "Element comparison is lexicographic by fields", "statement": "proxy <=> value/proxy is the comparison of the first unequal field (equal if none); == is equality of all fields; the vector's == is equality of size and all rows.", "quantifier": "all field counts and contents, also fields with partial order", "why_tests_cant": "all lists", "anchors": ["include/anyany/data_parallel_vector.hpp: compare_by_fields, operator=="]}
{"id": "C54", "title": "Iterator arithmetic laws", "statement": "For iterators of one vector (it + n) - it == n, it + n - n == it, ordering agrees with differences, it[n] is *(it + n), for all representable positions and offsets (also negative).", "quantifier": "all 64-bit positions and offsets", "why_tests_cant": "wrap-around arithmetic", "anchors": ["include/anyany/data_parallel_vector.hpp: iterator_"]}
{"id": "C55", "title": "data_parallel_vector exception safety of growth", "statement": "If push_back/emplace/insert throws, the vector is still a valid vector (all columns of equal length).", "quantifier": "all throw points", "why_tests_cant": "each column is a throw point", "anchors": ["include/anyany/data_parallel_vector.hpp: emplace_back, emplace"]}
{"id": "C56", "title": "Element swap and assignment through proxies", "statement": "swap(v[i], v[j]), iter_swap and v[i] = x exchange/replace exactly the named rows of the vector and change nothing else, also when i == j.", "quantifier": "all contents and indices", "why_tests_cant": "all indices", "anchors": ["include/anyany/data_parallel_vector.hpp: proxy::swap, operator=, iter_swap"]}
{"id": "C57", "title": "unique_ptr to an interface deletes the object once with its own type", "statement": "std::unique_ptr<interface_alias<Ms...>> created from new T runs T's destructor and frees T's memory exactly once, through any conversion of the pointer to fewer methods that keeps the deleter's method.", "quantifier": "all types, histories of moves/resets", "why_tests_cant": "histories", "anchors": ["include/anyany/anyany.hpp: std::default_delete<runtime_concept>", "include/anyany/noexport/anyany_details.hpp: deallocate_with_delete"]}
{"id": "C58", "title": "Erased visitors call the overload for the static type", "statement": "any_with<visitor_interface<Ts...>> visiting an lvalue of type T calls the stored visitor's overload for T with that object exactly once (or nothing if that overload returns noop); visitor2 likewise for each pair.", "quantifier": "all visitor types and Ts lists", "why_tests_cant": "all combos", "anchors": ["include/anyany/utility.hpp: visit1, visit2, visitor_interface, visitor2_interface"]}
{"id": "C59", "title": "const_poly_ptr can be made from a pointer to const any with fewer methods", "statement": "Like poly_ptr from Any*, const_poly_ptr<Ms...> can be constructed from const Any* whenever Ms is a contiguous part of the any's methods; it then points to the contained value, or is null when the any is empty.", "quantifier": "all reachable states, all method lists", "why_tests_cant": "a constraint failure is not an observable of a running test", "anchors": ["include/anyany/anyany.hpp: const_poly_ptr(const Any*)"]}
{"id": "C60", "title": "any_cast by value and by reference", "statement": "any_cast<T>(x) of an any or a polymorphic reference throws bad_cast and changes nothing unless the contained object has type T; otherwise any_cast<T&> and any_cast<T&&> refer to exactly that object with the constness of x, any_cast<T> of an lvalue or of a const operand returns a copy and leaves every object unchanged, any_cast<T> of a non-const rvalue any moves from that object only; if T's copy or move throws, nothing is lost or leaked.", "quantifier": "all reachable states, all operand forms, all conversion chains for references, all throw points", "why_tests_cant": "forms times states times throw points", "anchors": ["include/anyany/anyany.hpp: any_cast_fn::operator()"]}
{"id": "C61", "title": "any_cast with the traits of other types", "statement": "any_cast<T, Traits>(&x) returns the address of the object inside x iff that object has type T, otherwise nullptr, with the constness of x; for std::variant traits also in every state of the variant.", "quantifier": "all types, objects, variants", "why_tests_cant": "states of a variant that only arise by exceptions", "anchors": ["include/anyany/anyany.hpp: any_cast_fn<T, Traits>", "include/anyany/visit_invoke.hpp: std_variant"]}
{"id": "C62", "title": "The static type of any_cast's result is the type of the object", "statement": "If any_cast<T>(&x) returns a non-null pointer, the object it points to has the type the pointer says (T without reference and cv).", "quantifier": "all types T and all stored types", "why_tests_cant": "all types", "anchors": ["include/anyany/anyany.hpp: any_cast_fn", "include/anyany/type_descriptor.hpp: descriptor_v"]}
{"id": "C63", "title": "Arguments of methods arrive unchanged", "statement": "invoke<Method>(x, args...), the member function made by anyany_method and operator() of call<R(Args...)> run the method's body with arguments as if it had been called directly: parameters by reference denote the caller's own object with the declared constness, parameters by value are new objects with the caller's value, the caller's objects are unchanged unless given away as non-const rvalues, exactly one copy is made of an lvalue passed by value and none of an rvalue; after return or exception, every object made on the way is gone.", "quantifier": "all parameter lists, argument categories, values, throw points, both orders of initialisation", "why_tests_cant": "combinations of parameter kinds, value categories and throw points", "anchors": ["include/anyany/anyany.hpp: invoke_fn, vtable::invoke, invoker_for, call", "include/anyany/noexport/anyany_details.hpp: any_method_traits", "include/anyany/anyany_macro.hpp: anyany_method"]}
{"id": "C64", "title": "Only const methods can be invoked through const operands", "statement": "invoke<Method>(x, ...) compiles for a const any, a const_poly_ref or a cref only if the method takes self by const reference or by value.", "quantifier": "all operands and methods", "why_tests_cant": "a program that must not compile is not a test", "anchors": ["include/anyany/anyany.hpp: invoke_fn::operator()", "include/anyany/noexport/anyany_details.hpp: any_method_traits::is_const"]}
{"id": "C65", "title": "Access to fields by number", "statement": "For every aggregate with 1 to 29 fields magic_get<I> refers to field I of the given object and no other, const exactly when the member access would be; fields_count_v is the number of fields up to 30; for any other number of fields, or I out of range, the program does not compile instead of using a wrong field.", "quantifier": "all aggregates of any size, any mix of value and reference fields, const and value category", "why_tests_cant": "29 hand-written branches times field kinds; not compiling cannot be tested", "anchors": ["include/anyany/noexport/data_parallel_vector_details.hpp: field_count, magic_tie, magic_get"]}
{"id": "C66", "title": "Documented value categories and limits of magic_tie", "statement": "As the comments say: fields of an lvalue aggregate are given as lvalues, fields of an rvalue as std::forward would; aggregates with up to 30 fields are supported.", "quantifier": "all aggregates", "why_tests_cant": "combinations of field kinds and sizes", "anchors": ["include/anyany/noexport/data_parallel_vector_details.hpp: forward_save_prvalues, fields_count_v"]}
{"id": "C67", "title": "Views by type and by number show the right column", "statement": "view<X>() and view_only<X>() give a span over the column of the only field of type X (bool columns as bool) with the right constness and do not compile when no field or several fields have that type; view<I>() and std::get<I>(vector) give column I.", "quantifier": "all lists of field types, all requests", "why_tests_cant": "which column a span shows depends on the whole list of types; not compiling cannot be tested", "anchors": ["include/anyany/data_parallel_vector.hpp: get_span, view, std::get"]}
{"id": "C68", "title": "Capacity and validity of spans", "statement": "size() <= capacity() <= max_size() always; after reserve(n) succeeded capacity() >= n and no statement that keeps the size within n, other than shrink_to_fit, reallocates any column, so spans and pointers stay valid; a statement within capacity() cannot throw for want of memory; reserve never changes the size, also when it throws; without allocation failures a statement throws exactly when it asks for more than max_size().", "quantifier": "all histories, all growth policies per column, all failing allocations", "why_tests_cant": "growth policies and allocation failures are up to the implementation", "anchors": ["include/anyany/data_parallel_vector.hpp: capacity, max_size, reserve"]}
{"id": "C69", "title": "Values given as rvalues are moved", "statement": "push_back(T&&) and insert(pos, T&&) move each field of the argument once into its column without copies, so move-only fields work; iter_move moves each field of the row out once and changes no other row.", "quantifier": "all numbers of fields, all mixes of copyable and movable types", "why_tests_cant": "combinations of types; not compiling cannot be tested", "anchors": ["include/anyany/data_parallel_vector.hpp: emplace, emplace_back, push_back, insert, iter_move"]}
{"id": "C70", "title": "data_parallel_vector uses allocators as std::vector does", "statement": "The columns of a data_parallel_vector share one allocator; which one it is after construction, copy, move, assignment, assign and swap follows std::vector's rules (given allocator, select_on_container_copy_construction, propagation traits). Elements are right whatever the allocators; each column's storage is freed with the allocator that allocated it, also after exceptions.", "quantifier": "all allocator traits, all histories, all failing allocations", "why_tests_cant": "stateful allocators with unusual propagation traits and failures are rarely exercised", "anchors": ["include/anyany/data_parallel_vector.hpp: constructors, operator=, assign, swap"]}
{"id": "C71", "title": "Moves of a data_parallel_vector take the storage", "statement": "Move construction never throws and takes every column's storage; move assignment and construction with an allocator do so when allocators propagate or are equal; otherwise elements are moved one by one, and all columns keep one length even if that throws.", "quantifier": "all allocator traits, all vectors, all failing allocations", "why_tests_cant": "needs unequal allocators and a failure between two columns", "anchors": ["include/anyany/data_parallel_vector.hpp: move constructor, operator=(data_parallel_vector&&), swap"]}
{"id": "C72", "title": "poly_ptr and const_poly_ptr behave as pointers", "statement": "A variable of pointer type is null when default constructed, made from or assigned nullptr, made from the address of an empty any or from a null pointer; otherwise it points at the object its initialiser or last assignment gave, whatever chain of conversions, assignments and lifetimes of other variables came between. has_value, operator bool, == nullptr, != nullptr, raw() and -> agree on that; p == q and p != q for all four mixes of constness, in C++17 and in C++20, compare the objects pointed at, and equal pointers of one kind have equal hashes. Dereferencing null is asserted against.", "quantifier": "all programs over variables of pointer and reference types, all conversions", "why_tests_cant": "sequences of conversions and assignments are unbounded; both language standards", "anchors": ["include/anyany/anyany.hpp: poly_ptr, const_poly_ptr, operator==, operator!="]}
{"id": "C73", "title": "Rebinding references is explicit and exact", "statement": "REF = REF(value) makes a reference (poly_ref, const_poly_ref, stateful::ref, stateful::cref) refer to value's object and leaves all objects and all other variables as they were; any other assignment to a reference does not compile.", "quantifier": "all programs over variables of reference types, all forms of the right side", "why_tests_cant": "not compiling cannot be tested; interaction with views taken earlier", "anchors": ["include/anyany/anyany.hpp: AA_TRIVIAL_COPY_EXPLICIT_REBIND, poly_ref, stateful::ref, get_view"]}
{"id": "C74", "title": "Method macros declare what was written", "statement": "anyany_method, anyany_extern_method and anyany_pseudomethod, given a name, parameters, an expression and a return type made of any tokens, commas included, preprocess to exactly the struct a developer would write by hand: signature_type with int for the type of self and the given parameters and return type, do_invoke with Self for the type of self whose result and body are the expression converted to the return type, and for anyany_method a member function for each kind of self.", "quantifier": "all names and all lists of tokens for parameters, expression and return type", "why_tests_cant": "token lists are unbounded; not preprocessing cannot be tested", "anchors": ["include/anyany/anyany_macro.hpp: anyany_method, anyany_extern_method, anyany_pseudomethod, AA_GET_REQUIREMENT, AA_GET_TOKEN"]}
{"id": "C75", "title": "Any(args...) means what was written", "statement": "Construction of an any compiles exactly for the documented forms (nothing; a value; in_place_type with arguments or with a list; force_stable_pointers before these; allocator_arg and an allocator before nothing or a value; an any of the same class, of a derived class, or of a class with more methods), only with types that have all methods of the interface, and gives what was written: the any holds that object made from exactly those arguments, or the copied or moved content of the other any, in allocated memory if forced, with the given allocator. Two constructors are never ambiguous. An any or a reference of the library gets into an any only through in_place_type.", "quantifier": "all interfaces, all types and their properties, all lists of arguments of all value categories", "why_tests_cant": "not compiling cannot be tested; which of 13 constructors is taken depends on type properties, constness and value category of every argument", "anchors": ["include/anyany/anyany.hpp: basic_any constructors, exist_for, is_not_polymorphic, force_stable_pointers_t"]}
{"id": "C76", "title": "any = x and emplace store what was written", "statement": "any = x compiles exactly when x is a value with all methods of the interface, an any of the same or a derived class, or an any with more methods that converts; afterwards the any contains that value made from x, or the content of the other any, moved from an rvalue and copied otherwise; never an any in an any, never ambiguous. emplace<T>(args...) compiles exactly when T has all methods and can be made from the arguments.", "quantifier": "all interfaces, all types and their properties, all value categories", "why_tests_cant": "not compiling cannot be tested; conversions compete with the template", "anchors": ["include/anyany/anyany.hpp: basic_any::operator=, emplace"]}
{"id": "C77", "title": "Classes are taken for the methods they were written as", "statement": "A class with a static function template do_invoke(self, args...), with or without signature_type, is a method with that result, those arguments and that kind of self; it is const exactly when self is taken by value or by reference to const; its entry in a table is a pointer to R(const void* or void*, Args&&...). A class with value_type and do_value is a pseudomethod whose entry is that value. The concepts hold for them and for lists of them; exist_for<T, Methods...> is exactly the conjunction of their constraints for T.", "quantifier": "all classes of these forms, all constraints, all types T, all lists", "why_tests_cant": "templates that must not compile cannot be tested; constraints are arbitrary", "anchors": ["include/anyany/anyany.hpp: method_traits, pseudomethod, regular_method, simple_method, method, exist_for", "include/anyany/noexport/anyany_details.hpp: any_method_traits, get_method_signature"]}
{"id": "C78", "title": "A type that exist_for accepts has a table", "statement": "If exist_for<T, Methods...> holds, vtable_for<T, Methods...> compiles; each entry is of the kind its slot has, calls do_invoke<T> of that method with the object itself (or a copy when self is taken by value), and a method that counts as const never gets the object as non-const. If exist_for does not hold, the table would not compile.", "quantifier": "all classes, all types, all signatures", "why_tests_cant": "a constraint that holds although the program does not compile is not an observable of a running test", "anchors": ["include/anyany/anyany.hpp: invoker_for, vtable_for, exist_for"]}
{"id": "C79", "title": "Which plugins an any inherits", "statement": "An any inherits for each method the user's specialisation of aa::plugin (or the type it names), else the method's own plugin template or class, else nothing; each class once, and none that is a base of another one inherited.", "quantifier": "all lists of methods, all declarations, all inheritance relations between plugins", "why_tests_cant": "lists and inheritance relations are unbounded", "anchors": ["include/anyany/anyany.hpp: plugin, plugin_t, construct_interface", "include/anyany/noexport/anyany_details.hpp: get_plugin, inherit_without_duplicates"]}
{"id": "C80", "title": "Values that fit the buffer never touch the allocator", "statement": "A program that puts only types into its anys that fit the buffer (small, not over-aligned, nothrow movable), never forces stable pointers and never asks for more bytes than the buffer, uses the allocator for nothing: whatever it copies, moves, swaps, converts, materializes and destroys, and whichever of its own constructors throw, there is no allocation and no deallocation, every value stays inside its any, and with an allocator that always fails no operation throws unless the stored types do.", "quantifier": "all programs of any length over any number of anys, all allocator traits, all exceptions", "why_tests_cant": "the claim is about all programs; a test shows that one program does not allocate", "anchors": ["include/anyany/anyany.hpp: unreachable_allocator, emplace_in_empty, move_value_from, copy_method"]}
{"id": "C81", "title": "Storage of basic_any_with and of its copy method agree", "statement": "basic_any_with<Alloc, SooS, Methods...> uses the allocator of bytes belonging to Alloc and the smallest buffer that has SooS bytes and fills its alignment (none for 0); its static_asserts never fail. It is copyable exactly when copy_with with the same storage is among its methods; copy_with is the same method for two pairs of arguments exactly when they mean the same storage; naming the class through its own parameters gives the same class. materialize of a reference of a copyable any with the any's parameters returns the type of the any.", "quantifier": "all allocator types, all sizes, all (nested) method lists", "why_tests_cant": "types that must not compile cannot be tested; sizes and lists are unbounded", "anchors": ["include/anyany/anyany.hpp: copy_with, basic_any_with, basic_any::has_copy, materialize", "include/anyany/noexport/anyany_details.hpp: rebind_to_byte, soo_buffer_size"]}
{"id": "C82", "title": "Expressions on elements compile and act as for std::vector", "statement": "Every expression over const and non-const data_parallel_vectors made of begin/end, iterator arithmetic and comparison, front, back, [], get, conversion to the value type, assignment, swap, iter_move, iter_swap, == and <=> compiles exactly when it compiles for std::vector of the same type, then has the same value and effect on the elements, and never changes a vector that it names only as const.", "quantifier": "all expressions of any size, all contents of the vectors, all comparisons of fields", "why_tests_cant": "tests use a few forms; that an expression does not compile is not tested; the overloads for const and non-const multiply the forms", "anchors": ["include/anyany/data_parallel_vector.hpp: proxy, const_proxy, iterator_, front, back, operator[]"]}
{"id": "C83", "title": "Structured bindings of vectors and of references to elements", "statement": "auto [x...] = v compiles for a data_parallel_vector, a const one, a reference or a const_reference to an element exactly with as many names as the value type has fields; the I-th name is a span over column I with the type of field I (std::span<bool> for bool), or a reference to field I of the element, const exactly when the vector is const or the element is reached through const_reference.", "quantifier": "all lists of field types, all numbers of names", "why_tests_cant": "tests use one aggregate; what must not compile is not tested", "anchors": ["include/anyany/data_parallel_vector.hpp: tuple_size, tuple_element, get, proxy::tie, const_proxy::tie"]}
{"id": "C84", "title": "Which overload an erased visitor calls", "statement": "A call of an erased visitor with one argument calls the overload of the nearest class of its interface (the argument's class or the base nearest to it), and with two arguments the overload of the pair of nearest classes; it compiles exactly when these exist and the arguments can be bound to T&. For each T in the interface, a T& can be visited, and std::invocable tells which calls compile.", "quantifier": "all class hierarchies, all interfaces, all arguments (types, constness, value categories)", "why_tests_cant": "hierarchies and interfaces are unbounded; what must not compile is not tested", "anchors": ["include/anyany/utility.hpp: visitor_interface_tag, visit1, visit2, visitor_interface, visitor2_interface"]}
{"id": "C85", "title": "Which classes are accepted as erased visitors", "statement": "A class can be stored in an erased visitor exactly when a const object of it can be called with lvalues of the types of the interface; its call operator is in the table unless it returns aa::noop.", "quantifier": "all callables", "why_tests_cant": "a constraint that holds although the program does not compile is not an observable of a running test", "anchors": ["include/anyany/utility.hpp: visit1::do_value, visit2::do_value"]}
{"id": "C86", "title": "Insertion into a swarm selects the container of the nearest type", "statement": "insert(x) of a variant swarm compiles exactly when one of its types is nearest to the type of x: the same type, else the nearest base or the type reached by the best implicit conversion. The value goes into the container of that type, copied if x is an lvalue or const and is used as it is, else moved. std::visit(inserter(swarm), variant) compiles exactly when each alternative has such a type and then adds the value the variant holds.", "quantifier": "all class hierarchies and conversions, all lists of types, all reachable swarms", "why_tests_cant": "hierarchies, conversions and histories are unbounded; ambiguous calls do not compile", "anchors": ["include/anyany/variant_swarm.hpp: insert, inserter", "include/anyany/noexport/variant_swarm_details.hpp: inserter, inserters"]}
{"id": "C87", "title": "What references and pointers are made from", "statement": "poly_ref, const_poly_ref, poly_ptr, const_poly_ptr, stateful::ref and stateful::cref with any methods can be made exactly from: objects (mutable kinds only from lvalues that are not const), pointers to objects, pointers to anys and views with at least the methods, and nullptr, where every method exists for the object's type. No such initialisation is ambiguous, none gives write access where the source does not, each const kind is made from everything its mutable counterpart is made from, and std::is_constructible tells which initialisations compile.", "quantifier": "all lists of methods, all existence relations of methods and types, all argument types, constness and value categories, copy- and direct-initialisation", "why_tests_cant": "overload resolution over unboundedly many types and lists; what does not compile is not tested", "anchors": ["include/anyany/anyany.hpp: poly_ref, const_poly_ref, poly_ptr, const_poly_ptr, stateful::ref, stateful::cref constructors"]}
{"id": "C88", "title": "References to arrays and functions", "statement": "A reference or pointer made from an object has the table of the type of the object it refers to; stateful references refer to arrays and functions without decay.", "quantifier": "all kinds of references and pointers, all lists of methods, all argument types", "why_tests_cant": "a table of the wrong type is only observed by methods that depend on it; what does not compile is not tested", "anchors": ["include/anyany/anyany.hpp: stateful::ref, stateful::cref, addr_vtable_for", "README.md: stateful_ref"]}
{"id": "C89", "title": "Deduction of the methods of references and pointers", "statement": "R r = x without a list of methods deduces exactly the methods of x and r refers to what x refers to, for x a view R can be made from or a pointer to an any; from other sources no methods are deduced.", "quantifier": "all kinds of references and pointers, all sources, all lists", "why_tests_cant": "deduction over unboundedly many types and lists; what does not compile is not tested", "anchors": ["include/anyany/anyany.hpp: poly_ref, const_poly_ref, poly_ptr, const_poly_ptr, stateful::ref, stateful::cref, deduction guides"]}
{"id": "C90", "title": "Reading writes nothing", "statement": "has_value, type_descriptor, capacity, sizeof_now, is_stable_pointers, any_cast, comparisons, hashes and the making of references and pointers write no memory, whether they return or throw. Constructing an any, also by copying another or from a reference, writes only the new any and memory it allocates. No sequence of operations writes an any it does not name or the memory of that any; so operations on different anys, and reading ones on the same any, do not conflict.", "quantifier": "all reachable states, all sequences of operations, all types and methods, exceptions anywhere", "why_tests_cant": "tests compare values, not memory, and histories are unbounded; a data race shows only under the right schedule", "anchors": ["include/anyany/anyany.hpp: basic_any observers, copy constructor, any_cast, operator==, operator<=>, std::hash, poly_ref, poly_ptr"]}
{"id": "C91", "title": "Number of objects constructed and blocks allocated", "statement": "Constructing an any from a value, emplace, copying and materialize construct exactly one object on success, in its final place; moves construct at most one, none if the value is on the heap (move assignment: if allocators are always equal or propagate), copy assignment at most two, swap at most three, and other operations none. Value construction, emplace, copies, move assignment and replace ask for at most one block, copy assignment and swap for at most two, other operations for none. The bounds also hold when an exception is thrown.", "quantifier": "all states, all operations, all types, exceptions anywhere", "why_tests_cant": "tests count constructors in a few histories only; unbounded histories and failures at each point", "anchors": ["include/anyany/anyany.hpp: basic_any constructors, emplace, assignments, swap, replace_with_bytes, materialize"]}
{"id": "C92", "title": "Allocator-aware values use the allocator of their any", "statement": "With an allocator that does uses-allocator construction (std::pmr::polymorphic_allocator), a value that uses an allocator and is built in an any uses the any's allocator; after every sequence of operations each value in an any uses the resource of the any's get_allocator(), so that no value outlives its memory as long as each resource outlives the anys whose get_allocator() is it; and values made through the allocator are destroyed through it.", "quantifier": "all allocator traits, all types, all sequences of operations on any number of anys, resources destroyed at any point", "why_tests_cant": "the disagreement shows only when a resource is destroyed before an any that does not name it; tests keep resources alive to the end", "anchors": ["include/anyany/anyany.hpp: construct_value, destroy, basic_any assignments and constructors", "noexport/anyany_details.hpp: copy_fn, relocate"]}
{"id": "C93", "title": "Layout of anys and views", "statement": "In memory the parts of an any (base classes with plugins, vtable_ptr, value_ptr, the buffer shared with size_allocated, the allocator) are aligned, inside the object and share no bytes; a value that fits the buffer is aligned there and written over nothing else. Plugins and allocators without data cost nothing: an any without buffer has three words, another two words and its buffer, and no memory in it is useless. A reference or pointer has two words, a stateful reference one and its table.", "quantifier": "all buffer sizes, all sizes and alignments of plugins, allocators and values", "why_tests_cant": "tests check the offset of the buffer and the size without buffer for one any; no test can look at padding for all parameters", "anchors": ["include/anyany/anyany.hpp: basic_any data members, vtable_view, poly_ref, stateful::ref, default_any_soos", "include/anyany/noexport/anyany_details.hpp: soo_buffer_size, inheritor_of"]}
{"id": "C94", "title": "Programs that use different anys do not influence each other", "statement": "What a program does depends only on the anys and references it names, up to the addresses of blocks: in any two memories that agree on these, the same operations throw, each allocates, frees, constructs and destroys the same, the same undefined behaviour or termination is met, and the memories agree afterwards. If two programs, neither of which changes an any or reference the other names, each run from a reachable state, then so does every interleaving of their operations, with the same results for both; both may copy from the same anys.", "quantifier": "all memories, all reachable states, all pairs of programs, all interleavings, exceptions anywhere", "why_tests_cant": "independence speaks about pairs of executions and all schedules; a test sees one execution", "anchors": ["include/anyany/anyany.hpp: basic_any constructors, emplace, assignments, swap, reset, destructor, materialize", "include/anyany/anyany.hpp: stateful::ref"]}
{"id": "C95", "title": "An any is an optional value, wherever it is stored", "statement": "A program of constructions, copies, moves, assignments, swaps, emplace, reset, materialize from anys, method calls and destructions gives the answers and leaves the values of a machine in which an any is nothing but an optional value; an operation that throws leaves the values as they were, except that emplace and replace leave the any empty (and except for assignments that throw between allocators neither always equal nor propagating, see C08). So size of the buffer, allocator, and size, alignment and traits of the types cannot be told from what a program sees, as long as the same operations throw; and where only methods throw, the program does the same for all of them.", "quantifier": "all programs of any length, all reachable states, all pairs of buffer sizes, allocator traits and type traits, exceptions anywhere", "why_tests_cant": "a claim about pairs of configurations and all programs; tests run a few programs in a few configurations", "anchors": ["include/anyany/anyany.hpp: basic_any constructors, emplace, assignments, swap, reset, destructor, invoke, materialize"]}
{"id": "C96", "title": "Anys inside the values of anys", "statement": "Programs in which the values of anys contain anys, to any depth, behave as programs over trees of values: every construction, copy, move, assignment, emplace, reset and change of a value, for anys at any depth, ends without undefined behaviour in the trees one expects, and when something throws the trees are as before (after emplace: the any is empty). Every block of memory is owned by exactly one any, copies share nothing with their source, and no memory is left when the variables have ended. Moving, emptying and destroying allocate, copy and throw nothing. Assigning an any from an any inside its own value, or the other way round, is no exception.", "quantifier": "all programs of any length, all trees of any depth and width, all sizes of types and of the buffer, exceptions at any action", "why_tests_cant": "depth, sharing and the point of the exception are all unbounded; the library's functions run inside each other through the user's destructors and constructors", "anchors": ["include/anyany/anyany.hpp: basic_any constructors, emplace, assignments, reset, destructor, move_value_from", "include/anyany/noexport/anyany_details.hpp: copy, destroy, move"]}
{"id": "C97", "title": "Uses-allocator construction of anys", "statement": "Uses-allocator construction of an any (std::tuple(allocator_arg, alloc, ...), std::make_obj_using_allocator) makes what construction with allocator_arg and the allocator makes: an empty any or one with the value, the copied or moved any or the object made in place, with the given allocator; an allocator of another type is not used. It is never ambiguous. Its possible results are listed.", "quantifier": "all anys, all argument lists, all types and what they can be made from", "why_tests_cant": "a choice among overloads for unboundedly many types; no test constructs an any this way", "anchors": ["include/anyany/anyany.hpp: std::uses_allocator, basic_any constructors"]}
{"id": "C98", "title": "noexcept specifications of anys", "statement": "An operation of basic_any is noexcept exactly when it cannot throw: one that is noexcept always returns and std::terminate is never called, and for one that is not there is a type of value, a state and a failure with which it throws.", "quantifier": "all buffer sizes, all allocator traits, all types, all reachable states, failures anywhere", "why_tests_cant": "a specification that is too weak costs performance and guarantees elsewhere (C99) and fails no test; one that is too strong shows only when the right call fails", "anchors": ["include/anyany/anyany.hpp: basic_any constructors, emplace, assignments, reset, replace_with_bytes, movable_alloc, construct_value"]}
{"id": "C99", "title": "Anys as elements of std::vector", "statement": "When a std::vector of anys gets other storage, the new elements hold the values of the old ones in order, or an exception is thrown and all elements are as before; since an any is moved without exceptions, growth neither throws nor allocates memory for values, values on the heap stay where they are and elements keep their allocators. push_back of a copy, also of an element of the same vector, appends the value or changes nothing; push_back of an rvalue appends its value. erase removes one element and keeps the values, the order and the addresses of the others on the heap.", "quantifier": "all vectors of any length, all reachable states, all types, allocator traits and interfaces, exceptions anywhere", "why_tests_cant": "which branch std::vector takes is decided by noexcept specifications; a test sees copies instead of moves only if it counts them, with such an allocator", "anchors": ["include/anyany/anyany.hpp: basic_any move and copy constructors, move assignment, movable_alloc"]}
{"id": "C100", "title": "Anys as keys of std::unordered_set", "statement": "A std::unordered_set of anys with equal_to and hash behaves as a set of optional values of many types, for all histories: find, insert and erase agree with equality of type and value (an empty any is a key like others), at most one of several equal anys is kept, insert copies its argument or returns what is there, and when the copy throws the set and all anys are as before; rehashing keeps the elements; this does not depend on whether hash codes are cached, nor on what the program does with other anys in between.", "quantifier": "all histories of any length, all hash functions and equalities of the stored types that std::unordered_set admits for each type alone, any number of buckets, exceptions anywhere", "why_tests_cant": "equality and hash have to agree over all pairs of types and values, and a disagreement shows only if the keys meet in a bucket", "anchors": ["include/anyany/anyany.hpp: std::hash<basic_any>, operator==, basic_any copy constructor and destructor"]}
{"id": "C101", "title": "Anys as keys of std::set", "statement": "A std::set of anys with spaceship behaves as an ordered set of their values, for all histories and shapes of the tree: its elements are increasing and no two are equivalent, find returns an element equivalent to the key if there is one, insert puts a copy in its place or changes nothing, also when the copy throws, and erase removes the element equivalent to the key.", "quantifier": "all histories of any length, all strict weak orders of values, all shapes of the tree, exceptions anywhere", "why_tests_cant": "requirements on < concern all triples of values and types; a wrong order shows only for some sequences of insertions", "anchors": ["include/anyany/anyany.hpp: operator<=>, basic_any copy constructor and destructor"]}
{"id": "C102", "title": "Programs on data_parallel_vectors", "statement": "A program that uses data_parallel_vectors, its next statement depending in any way on the results of the statements before, gives the result it gives with std::vectors of the same value type and leaves the same contents in all columns, as long as it is defined for std::vector and uses what data_parallel_vector offers.", "quantifier": "all programs that end, of any length, all value types with any number of fields, all contents", "why_tests_cant": "programs are unbounded and adaptive; a test compares one program on one input", "anchors": ["include/anyany/data_parallel_vector.hpp: data_parallel_impl, proxy, const_proxy, iterator_"]}
{"id": "C103", "title": "Sorting and filtering data_parallel_vectors", "statement": "Insertion sort written with <=> of elements and iter_swap leaves a permutation of the rows in which no row is greater than a later one, and erasing one after the other the rows with a property leaves the others in their order; all other vectors keep their contents and all columns have equal length.", "quantifier": "all vectors, any number of rows and fields, all total orders of the fields, all properties of rows", "why_tests_cant": "a row must move as a whole through N separate columns in every exchange and removal, for all sequences of them", "anchors": ["include/anyany/data_parallel_vector.hpp: iterator_::do_iter_swap, proxy::compare_by_fields, erase, operator[]"]}
{"id": "C104", "title": "Algorithms that compare and move anys", "statement": "An algorithm that only compares anys with <, moves them and ends their lifetimes does with anys, whose allocators are always equal or propagate, what it would do with their values: it takes the same branches, leaves the same values in the same anys, makes no two of one value, never throws, allocates nothing, and values on the heap stay at their addresses. Reversing a range of anys reverses their values, and an insertion sort leaves a stable sorted permutation.", "quantifier": "all such algorithms, adaptive and of any length, all anys of one class, all stored values, buffer sizes and such allocators", "why_tests_cant": "algorithms are unbounded and adaptive; a test runs one on one input, and cannot see that no value is duplicated or lost in any other order of moves", "anchors": ["include/anyany/anyany.hpp: basic_any move constructor, move assignment, destructor, operator<=>"]}
{"id": "C105", "title": "The same program in C++17 and in C++20", "statement": "A program that constructs, assigns and emplaces anys means the same whether it is compiled as C++17 or as C++20, and the answers of the type traits (is_copy_constructible, is_move_constructible, the assignable ones, exist_for, std::hash enabled) agree with what compiles in both; a std::vector of anys that can be moved can grow in both.", "quantifier": "all interfaces, allocator types, buffer sizes, types of the program and what they offer, all argument lists", "why_tests_cant": "the constraints exist in one of the standards only and the bodies compile or not for each interface; a test that must not compile cannot be run", "anchors": ["include/anyany/anyany.hpp: basic_any copy and move constructors and assignments, get_move_fn, move_value_from, exist_for, std::hash", "include/anyany/noexport/file_begin.hpp: AA_IF_HAS_CPP20"]}
{"id": "C106", "title": "Classes with anys as members", "statement": "A class whose members are anys, of any interfaces, can leave its special members to the compiler: a copy has equal members or, when copying one of them throws, nothing is left of it; moving, swapping and destroying never throw, allocate nothing and lose no value, and destruction runs from the last member to the first; an assignment makes the members equal, an object may be assigned to itself, and an assignment that throws leaves the object as it was, also if it is written as a copy followed by a move assignment.", "quantifier": "all numbers of members, all interfaces of each, all values, all reachable states, exceptions anywhere", "why_tests_cant": "guarantees of the single any compose over an unbounded number of members with an exception at any of them; the tests of the library have no class with two anys and an exception", "anchors": ["include/anyany/anyany.hpp: basic_any copy and move constructors, copy and move assignments, destructor"]}
{"id": "C107", "title": "What visit_invoke compares", "statement": "A call of resolve compares keys at most log2 n + 2 times for n overloads, always the key of the call with the key of an overload, hence at most args_count times as many descriptors; the table does not depend on the sorting algorithm; and a call whose constness is checked stays logarithmic.", "quantifier": "all overload sets of any size and arity, all argument types, all descriptors", "why_tests_cant": "cost for all sizes; a test measures some sizes, and a linear search returns the same results", "anchors": ["include/anyany/visit_invoke.hpp: visit_invoke_fn::resolve, runtime_const_correctness_check", "include/anyany/noexport/visit_invoke_details.hpp: flat_map"]}
{"id": "C108", "title": "Atomic pointers", "statement": "A std::atomic<poly_ptr<Methods...>> used by any number of threads: a thread only ever reads pointers that were written as a whole, never the table of one with the address of another; a compare_exchange succeeds exactly when the pointer found is equal to the one expected; of the threads that install a pointer where there is null exactly one succeeds and the others get its pointer; and threads that update the pointer in loops of compare_exchange act one after the other, each done after at most as many attempts as there are threads (not counting those of compare_exchange_weak that fail spuriously); and pointers handed over by exchange are neither lost nor received twice.", "quantifier": "all numbers of threads, all programs of each, all schedules, all interfaces with at least one method, all pointers", "why_tests_cant": "interleavings are not enumerable and the library has no test with threads; that equal pointers may have different words shows only with pointers made in different ways", "anchors": ["README.md: poly_ptr, trivially copyable, so std::atomic<poly_ptr<...>> works", "include/anyany/anyany.hpp: poly_ptr, const_poly_ptr, noexport::vtable_view"]}
{"id": "C109", "title": "A value on the heap is followed through a program", "statement": "A pointer to a value on the heap stays good through any program: the same object is at the same address, in the any that the program handed it on to, read off its move constructions and converting move constructions and, when allocators always compare equal or propagate in move assignments, its move assignments and swaps, whatever it does with other anys and whether operations throw; the object has the same value unless a method was called. Pointers and references obtained before, directly or through conversions, still act on it, as calls through the any that has it now. When no operation throws it is destroyed exactly once, by the first operation that discards or overwrites the value of the any it is in, and not before.", "quantifier": "all programs of any length, all reachable states, all types, interfaces, buffer sizes and allocators, exceptions anywhere", "why_tests_cant": "C13 is about one move; a program is an unbounded sequence of moves in which the value may pass through temporaries of swaps, conversions and failed operations", "anchors": ["include/anyany/anyany.hpp: basic_any move constructor, converting move constructor, move assignment, move_value_from, swap"]}
{"id": "C110", "title": "Descriptors as keys of maps", "statement": "For every program of insertions, assignments, erasures and lookups on a std::map<descriptor_t, X> or a std::unordered_map<descriptor_t, X>, with the tree rebalanced and the table rehashed at any time: a lookup finds what a map keyed by the names of the types holds, wherever in memory the names of the descriptors used are; no operation is undefined; iteration visits each entry once, in a std::map in the order of the names. So, where the compiler spells different types differently and each type always alike (C41), what one translation unit registers for a type another finds for that type and no other. A handler registered for a type is found with the type_descriptor of an any, reference or pointer exactly if the value has that type.", "quantifier": "all programs, value types, descriptors and addresses of their names, all hash functions of strings, numbers of buckets, cached and uncached hash codes", "why_tests_cant": "needs descriptors of one type at different addresses, that is several translation units or libraries, all shapes of trees and all collisions of hash codes", "anchors": ["include/anyany/type_descriptor.hpp:40-63", "include/anyany/type_descriptor.hpp:127-136"]}
