{
 "claims": [
  {
   "property": "C01",
   "status": "proved",
   "theorems": [
    "C01_empty_reads_empty"
   ],
   "note": ""
  },
  {
   "property": "C02",
   "status": "proved",
   "theorems": [
    "C02_stored_reads_back"
   ],
   "note": ""
  },
  {
   "property": "C03",
   "status": "proved",
   "theorems": [
    "C03_states_observed",
    "C03_states_distinct",
    "C03_reset_layer",
    "C03_emplace_layer"
   ],
   "note": ""
  },
  {
   "property": "C04",
   "status": "proved",
   "theorems": [
    "C04_zero_overhead",
    "C04_nested_size"
   ],
   "note": ""
  },
  {
   "property": "C05",
   "status": "proved",
   "theorems": [
    "C05_level_round_trip"
   ],
   "note": "Bound is levels t, which equals max_level t except for 1/2-byte PADDING members and wide signed SENTINEL_START enums; those deviations are defects of the code, proved as C14_narrow_refuted and C11_start_refuted."
  },
  {
   "property": "C06",
   "status": "proved",
   "theorems": [
    "C06_values_not_levels"
   ],
   "note": ""
  },
  {
   "property": "C07",
   "status": "proved",
   "theorems": [
    "C07_set_level_frame",
    "C07_empty_frame"
   ],
   "note": ""
  },
  {
   "property": "C08",
   "status": "proved",
   "theorems": [
    "C08_canonical_storable",
    "C08_reserved_noncanonical",
    "C08_pointer32"
   ],
   "note": ""
  },
  {
   "property": "C09",
   "status": "proved",
   "theorems": [
    "C09_double",
    "C09_float"
   ],
   "note": ""
  },
  {
   "property": "C10",
   "status": "proved",
   "theorems": [
    "C10_flag_unions_storable",
    "C10_reserved_block",
    "C10_start_is_least_power_of_two"
   ],
   "note": ""
  },
  {
   "property": "C11",
   "status": "partial",
   "theorems": [
    "C11_sentinel_partial",
    "C11_start_partial",
    "C11_start_end_partial",
    "C11_sentinel_exact",
    "C11_start_exact",
    "C11_start_end_exact",
    "C11_sentinel_refuted",
    "C11_start_refuted",
    "C11_start_count_refuted"
   ],
   "note": "Proved when the underlying type is unsigned or narrower than int. For wide signed underlying types the property is false of the code: the three _refuted theorems give witnesses. The _exact theorems say, for every underlying type, for which values the level is undefined and that the property holds for all others."
  },
  {
   "property": "C12",
   "status": "proved",
   "theorems": [
    "C12_tuple_carrier",
    "C12_pair_carrier",
    "C12_class_tuple"
   ],
   "note": ""
  },
  {
   "property": "C13",
   "status": "proved",
   "theorems": [
    "C13_library_types"
   ],
   "note": ""
  },
  {
   "property": "C14",
   "status": "partial",
   "theorems": [
    "C14_wide_padding",
    "C14_narrow_padding_partial",
    "C14_exact",
    "C14_zero_is_value",
    "C14_narrow_refuted",
    "C14_narrow_deep_refuted"
   ],
   "note": "Proved for PADDING members of 4 and 8 bytes and, for 1 and 2 bytes, for all levels the member can hold. The advertised level count of 1/2-byte members is too large: _refuted theorems give witnesses, and C14_exact says for every width and level what is read back."
  },
  {
   "property": "C15",
   "status": "proved",
   "theorems": [
    "C15_sentinel",
    "C15_duplicates_refuted"
   ],
   "note": "For lists without duplicates; C15_duplicates_refuted shows the static checks accept a duplicate that breaks the level round trip."
  },
  {
   "property": "C16",
   "status": "proved",
   "theorems": [
    "C16_sentinel_option_traits",
    "C16_sentinel_f_single",
    "C16_sentinel_f_refuted",
    "C16_sentinel_f_repaired",
    "C16_member_enforce"
   ],
   "note": "sentinel_f with two or more constants does not compile (C16_sentinel_f_refuted); the repaired version is proved too."
  },
  {
   "property": "C17",
   "status": "proved",
   "theorems": [
    "C17_dead_use",
    "C17_leak_seen",
    "C17_dead_assign",
    "C17_dead_swap",
    "C17_alive_iff_has_value",
    "C17_no_leak"
   ],
   "note": ""
  },
  {
   "property": "C18",
   "status": "proved",
   "theorems": [
    "C18_refines_optional",
    "C18_observed",
    "C18_any_depth",
    "C18_nested_in_place"
   ],
   "note": "Flag and level storage (any lawful class, including nested options of any depth); option<T&> is treated in the reference layer."
  },
  {
   "property": "C19",
   "status": "proved",
   "theorems": [
    "C19_copy_assignment",
    "C19_move_assignment",
    "C19_value_assignment",
    "C19_emplace"
   ],
   "note": ""
  },
  {
   "property": "C20",
   "status": "proved",
   "theorems": [
    "C20_flag_histories",
    "C20_flag_exceptions"
   ],
   "note": ""
  },
  {
   "property": "C21",
   "status": "partial",
   "theorems": [
    "C21_torn_constructor_refuted",
    "C21_torn_copy_refuted",
    "C21_nested_copy_refuted",
    "C21_quiet_partial",
    "C21_exact",
    "C21_tuple_refuted"
   ],
   "note": "The claim is false of the code: four _refuted theorems give witnesses (torn constructor, torn copy, copy of a nested option, a tuple one of whose elements throws). Proved under the condition that a throwing constructor does not disturb the level pattern of its storage. C21_exact: the condition is also necessary."
  },
  {
   "property": "C22",
   "status": "proved",
   "theorems": [
    "C22_self"
   ],
   "note": ""
  },
  {
   "property": "C23",
   "status": "proved",
   "theorems": [
    "C23_swap",
    "C23_swap_calls",
    "C23_swap_twice",
    "C23_std_swap",
    "C23_self_std_swap"
   ],
   "note": ""
  },
  {
   "property": "C24",
   "status": "proved",
   "theorems": [
    "C24_take",
    "C24_take_if",
    "C24_take_if_calls",
    "C24_take_calls"
   ],
   "note": ""
  },
  {
   "property": "C25",
   "status": "proved",
   "theorems": [
    "C25_reserved_detected",
    "C25_none_pattern_aborts",
    "C25_write_through_refuted"
   ],
   "note": "Holds for every storing operation; writes through get()/operator* are unchecked (C25_write_through_refuted)."
  },
  {
   "property": "C26",
   "status": "proved",
   "theorems": [
    "C26_programs",
    "C26_no_write_through",
    "C26_write",
    "C26_checked_only"
   ],
   "note": ""
  },
  {
   "property": "C27",
   "status": "proved",
   "theorems": [
    "C27_access",
    "C27_dead_access",
    "C27_bytes",
    "C27_layers"
   ],
   "note": ""
  },
  {
   "property": "C28",
   "status": "proved",
   "theorems": [
    "C28_map",
    "C28_and_then",
    "C28_map_or",
    "C28_map_or_else",
    "C28_or_else",
    "C28_has_value_and",
    "C28_inspect",
    "C28_filter",
    "C28_map_result",
    "C28_and_then_result",
    "C28_or_else_result",
    "C28_has_value_and_result",
    "C28_inspect_result",
    "C28_filter_result",
    "C28_take_if"
   ],
   "note": ""
  },
  {
   "property": "C29",
   "status": "proved",
   "theorems": [
    "C29_map_identity",
    "C29_map_compose",
    "C29_and_then_left_identity",
    "C29_and_then_right_identity",
    "C29_and_then_assoc",
    "C29_map_via_and_then",
    "C29_filter_via_and_then",
    "C29_or_else_assoc",
    "C29_or_else_none_right",
    "C29_or_else_none_left"
   ],
   "note": ""
  },
  {
   "property": "C30",
   "status": "proved",
   "theorems": [
    "C30_value_or",
    "C30_default_unused",
    "C30_map_or",
    "C30_map_or_else"
   ],
   "note": ""
  },
  {
   "property": "C31",
   "status": "proved",
   "theorems": [
    "C31_dead_operand",
    "C31_tuple",
    "C31_zip",
    "C31_all_or_nothing",
    "C31_zip_with_calls",
    "C31_zip_with",
    "C31_zip_do_calls",
    "C31_zip_do",
    "C31_unzip",
    "C31_unzip_zip",
    "C31_zip_unzip"
   ],
   "note": "Any number of operands, any element classes that meet the contract and never produce their reserved pattern. zip_with is proved for functions that return proper objects."
  },
  {
   "property": "C32",
   "status": "proved",
   "theorems": [
    "C32_flatten"
   ],
   "note": ""
  },
  {
   "property": "C33",
   "status": "proved",
   "theorems": [
    "C33_or",
    "C33_xor",
    "C33_and",
    "C33_or_assign",
    "C33_or_assign_copy",
    "C33_or_assign_move",
    "C33_algebra"
   ],
   "note": ""
  },
  {
   "property": "C34",
   "status": "proved",
   "theorems": [
    "C34_option_option",
    "C34_operator_used",
    "C34_option_none",
    "C34_option_value",
    "C34_consistent",
    "C34_mirrored",
    "C34_strict_weak",
    "C34_equivalence",
    "C34_total",
    "C34_none_least"
   ],
   "note": ""
  },
  {
   "property": "C35",
   "status": "proved",
   "theorems": [
    "C35_hash",
    "C35_equal_hash",
    "C35_reference_hash"
   ],
   "note": ""
  },
  {
   "property": "C36",
   "status": "proved",
   "theorems": [
    "C36_range",
    "C36_random_access",
    "C36_add_range",
    "C36_increments",
    "C36_null_checked",
    "C36_arrow",
    "C36_unchecked_refuted",
    "C36_pointers_undefined"
   ],
   "note": ""
  },
  {
   "property": "C37",
   "status": "proved",
   "theorems": [
    "C37_at",
    "C37_front_back",
    "C37_lookup",
    "C37_lookup_iff"
   ],
   "note": ""
  },
  {
   "property": "C38",
   "status": "proved",
   "theorems": [
    "C38_get_index",
    "C38_get_type",
    "C38_variant_index",
    "C38_variant_type"
   ],
   "note": ""
  },
  {
   "property": "C39",
   "status": "proved",
   "theorems": [
    "C39_output",
    "C39_output_alternative",
    "C39_input"
   ],
   "note": ""
  },
  {
   "property": "C40",
   "status": "proved",
   "theorems": [
    "C40_nullable",
    "C40_nullable_back",
    "C40_reference_access",
    "C40_as_option"
   ],
   "note": ""
  },
  {
   "property": "C41",
   "status": "proved",
   "theorems": [
    "C41_converting_construction",
    "C41_converting_construction_calls",
    "C41_converting_assignment",
    "C41_option_cast",
    "C41_make_option",
    "C41_cast_compose"
   ],
   "note": ""
  },
  {
   "property": "C42",
   "status": "proved",
   "theorems": [
    "C42_one_specialisation",
    "C42_special_members",
    "C42_nested",
    "C42_lifetime_model",
    "C42_deleted_move_refuted"
   ],
   "note": "C42_deleted_move_refuted: for a copyable T with a deleted move constructor the deleted move of the option is ignored and copies."
  },
  {
   "property": "C43",
   "status": "proved",
   "theorems": [
    "C43_rvalue_overloads",
    "C43_rvalue_map",
    "C43_rvalue_and_then",
    "C43_moved_from_engaged"
   ],
   "note": ""
  },
  {
   "property": "C44",
   "status": "partial",
   "theorems": [
    "C44_unqualified",
    "C44_const",
    "C44_levels_exist",
    "C44_const_compiles",
    "C44_const_refuted"
   ],
   "note": "Proved for every T that is not const. For const T the property is false of the code exactly when option_traits<const T> has no levels although option_traits<T> has (C44_const, C44_const_refuted); such options do not compile."
  },
  {
   "property": "C45",
   "status": "proved",
   "theorems": [
    "C45_doc_bool",
    "C45_doc_reference_wrapper",
    "C45_doc_pointer64",
    "C45_doc_pointer32",
    "C45_doc_double",
    "C45_doc_float",
    "C45_doc_polymorphic",
    "C45_doc_unique_ptr",
    "C45_doc_string",
    "C45_doc_member_pointer32",
    "C45_doc_member_pointer64",
    "C45_code_string_view",
    "C45_doc_string_view_refuted",
    "C45_code_reference",
    "C45_doc_reference_refuted",
    "C45_code_vector",
    "C45_doc_vector_refuted"
   ],
   "note": "Eleven rows proved against the documented table; the three rows that do not match the code have a theorem saying what the code does and a _refuted witness against the table."
  },
  {
   "property": "C46",
   "status": "proved",
   "theorems": [
    "C46_memcpy",
    "C46_copy_ops"
   ],
   "note": ""
  },
  {
   "property": "C47",
   "status": "proved",
   "theorems": [
    "C47_noexcept"
   ],
   "note": ""
  },
  {
   "property": "C48",
   "status": "proved",
   "theorems": [
    "C48_scan",
    "C48_safe",
    "C48_misled_refuted"
   ],
   "note": "C48_misled_refuted: a comma inside the type's name that leads to a parenthesis misleads the scan."
  },
  {
   "property": "C49",
   "status": "partial",
   "theorems": [
    "C49_value_constructor",
    "C49_option_constructor",
    "C49_arguments_constructor",
    "C49_value_assignment",
    "C49_option_assignment",
    "C49_reference_conversion_refuted",
    "C49_reference_conversion",
    "C49_in_place_reference",
    "C49_in_place_exact",
    "C49_in_place_reference_refuted",
    "C49_printed_binding_refuted"
   ],
   "note": "Proved for every template except two that disagree with the documentation when T is a reference: the converting constructors are never enabled (C49_reference_conversion) and the in_place constructor takes any first argument (C49_in_place_reference). Constraints only; what the compiler answers about T is a parameter."
  },
  {
   "property": "C50",
   "status": "partial",
   "theorems": [
    "C50_never_both",
    "C50_never_both_assign",
    "C50_value_first",
    "C50_bool",
    "C50_one_argument",
    "C50_nested",
    "C50_nested_constructible",
    "C50_nested_implicit",
    "C50_nested_any",
    "C50_nested_same",
    "C50_nested_bool",
    "C50_moved",
    "C50_moved_constructible",
    "C50_completed",
    "C50_bool_refuted",
    "C50_aggregate_refuted"
   ],
   "note": "Proved for every T in C++20 and every T that is not an aggregate in C++17; for C++17 aggregates the property is false of the code (C50_aggregate_refuted). Layers correspond from the inside when the innermost type is not bool and cannot be made from an option (C50_nested); for bool this is false of the code (C50_bool_refuted). C50_nested_any says for every innermost type what is built."
  },
  {
   "property": "C51",
   "status": "proved",
   "theorems": [
    "C51_types_are_classes",
    "C51_programs"
   ],
   "note": ""
  },
  {
   "property": "C52",
   "status": "proved",
   "theorems": [
    "C52_onto",
    "C52_value",
    "C52_has_value",
    "C52_default",
    "C52_reset",
    "C52_construct",
    "C52_assign",
    "C52_emplace",
    "C52_try_emplace",
    "C52_get",
    "C52_build",
    "C52_copy",
    "C52_copy_assign",
    "C52_move_assign",
    "C52_take",
    "C52_swap"
   ],
   "note": ""
  },
  {
   "property": "C53",
   "status": "proved",
   "theorems": [
    "C53_programs",
    "C53_start",
    "C53_variables_undefined",
    "C53_calls_undefined",
    "C53_steps_undefined"
   ],
   "note": ""
  },
  {
   "property": "C54",
   "status": "proved",
   "theorems": [
    "C54_only_documented",
    "C54_every_documented",
    "C54_unique",
    "C54_signed_enum",
    "C54_signed_enum_refuted",
    "C54_room",
    "C54_levels",
    "C54_same_mechanism",
    "C54_levels_const_members",
    "C54_no_builtin",
    "C54_const_first",
    "C54_const_second",
    "C54_const_member_refuted"
   ],
   "note": ""
  },
  {
   "property": "C55",
   "status": "proved",
   "theorems": [
    "C55_programs",
    "C55_class",
    "C55_throwing_constructor",
    "C55_any_depth",
    "C55_options_harmless",
    "C55_destroyed_twice",
    "C55_calls",
    "C55_in_place",
    "C55_balance_refuted"
   ],
   "note": ""
  },
  {
   "property": "C56",
   "status": "proved",
   "theorems": [
    "C56_access",
    "C56_arrow",
    "C56_passes",
    "C56_value_or",
    "C56_value_or_reference",
    "C56_value_or_construct",
    "C56_value_or_refuted",
    "C56_value_or_default",
    "C56_value_or_default_refuted",
    "C56_or_else",
    "C56_filter",
    "C56_map",
    "C56_option_cast",
    "C56_make_option",
    "C56_from_nullable",
    "C56_member_of_object",
    "C56_member_of_referent",
    "C56_member_function",
    "C56_documented_refuted",
    "C56_inspect_moves"
   ],
   "note": "Types with one level of const and at most one reference; conversions between classes are left out. Deviations with witnesses: value_or on rvalue option<const T>, value_or of option<X&&> with an lvalue default, documented result of operator*() &&."
  },
  {
   "property": "C57",
   "status": "proved",
   "theorems": [
    "C57_at",
    "C57_get_index",
    "C57_get_owned",
    "C57_get_refuted",
    "C57_get_element_refuted",
    "C57_get_by_type",
    "C57_get_by_type_rvalue",
    "C57_get_by_type_refuted",
    "C57_variant",
    "C57_lookup",
    "C57_zip",
    "C57_zip_fails",
    "C57_zip_with",
    "C57_unzip",
    "C57_flatten",
    "C57_flatten_documented",
    "C57_flatten_const",
    "C57_flatten_rvalue_reference",
    "C57_flatten_refuted",
    "C57_flatten_stops_refuted"
   ],
   "note": "Exact result for every function; deviations from the documentation or the holder's rights have witnesses."
  },
  {
   "property": "C58",
   "status": "proved",
   "theorems": [
    "C58_never_enabled",
    "C58_std_swap",
    "C58_reference_ambiguous",
    "C58_references"
   ],
   "note": "Ambiguity is modelled as: both templates accept the operands and neither is more specialized."
  },
  {
   "property": "C59",
   "status": "partial",
   "theorems": [
    "C59_agrees_partial",
    "C59_decides",
    "C59_reference",
    "C59_agrees32_partial",
    "C59_nan_refuted",
    "C59_member_pointer_refuted",
    "C59_sentinel_refuted",
    "C59_pointer32_refuted",
    "C59_double32_refuted",
    "C59_string32_refuted",
    "C59_raw_whole",
    "C59_raw_condition",
    "C59_raw_double"
   ],
   "note": "Proved for 64-bit builds apart from the NaN patterns of the other family, and for 32-bit builds apart from strings, pointers and option<option<double>>; elsewhere the property is false of the file, with witnesses. For types whose entry shows has_value() next to the value nothing is claimed."
  },
  {
   "property": "C60",
   "status": "proved",
   "theorems": [
    "C60_my_type",
    "C60_levels",
    "C60_reset",
    "C60_minus_one_refuted",
    "C60_my_type_3",
    "C60_my_type_3_overflow_refuted",
    "C60_my_type_3_narrow_refuted",
    "C60_my_type_4_refuted",
    "C60_my_type_4_meant",
    "C60_float",
    "C60_disabled",
    "C60_some_struct",
    "C60_hundred_refuted"
   ],
   "note": "my_type_3 keeps the rules for signed T and for unsigned T at least as wide as int (C60_my_type_3); the remaining cases and the my_type_4 typo are refutations with witnesses."
  },
  {
   "property": "C61",
   "status": "partial",
   "theorems": [
    "C61_same_value",
    "C61_assignment",
    "C61_cxx17",
    "C61_cxx17_errors",
    "C61_cxx20_partial",
    "C61_cxx20_errors",
    "C61_cxx20_refuted",
    "C61_array",
    "C61_reference_partial",
    "C61_reference_refuted"
   ],
   "note": "Proved for C++17, and for C++20 except that the constructors reject aggregates that braces do not initialise (C61_cxx20_errors says exactly when, C61_cxx20_refuted is a witness). The reference's wording holds for aggregates only (C61_reference_partial, _refuted)."
  },
  {
   "property": "C62",
   "status": "partial",
   "theorems": [
    "C62_copies",
    "C62_constructor",
    "C62_aggregate",
    "C62_integer",
    "C62_integer_value",
    "C62_narrowing_refuted",
    "C62_container_refuted",
    "C62_literal_refuted",
    "C62_returned_sentinel_refuted"
   ],
   "note": "Proved for objects of the type itself, for aggregates and for integers without narrowing; false of the code for narrowing integers, containers and literals, with witnesses. C62_constructor is exact for every type and argument list."
  },
  {
   "property": "C63",
   "status": "proved",
   "theorems": [
    "C63_annotations",
    "C63_used",
    "C63_sound",
    "C63_accepted",
    "C63_clang",
    "C63_reset_refuted",
    "C63_swap_refuted",
    "C63_take_if_refuted",
    "C63_move_refuted",
    "C63_converted_refuted"
   ],
   "note": "The rules of Clang for functions without annotation are read from its implementation, not from the repository."
  },
  {
   "property": "C64",
   "status": "proved",
   "theorems": [
    "C64_cxx20",
    "C64_cxx17",
    "C64_cxx17_destructor",
    "C64_traits",
    "C64_no_default",
    "C64_types",
    "C64_opaque",
    "C64_opaque_asks",
    "C64_verification",
    "C64_bool_refuted",
    "C64_default_refuted",
    "C64_nested"
   ],
   "note": "The rules of constant evaluation (active union members) are read from the C++ standard. Traits written by a user are assumed usable. std::swap is a parameter before C++20."
  },
  {
   "property": "C65",
   "status": "proved",
   "theorems": [
    "C65_registers",
    "C65_addresses",
    "C65_sum",
    "C65_difference",
    "C65_movzx",
    "C65_listings",
    "C65_all_functions",
    "C65_passing_code"
   ],
   "note": "The x86-64 subset and the calling conventions are part of the trusted reading; listings for std::optional and the parsing of objdump output are left out. Assignment of one option to another is compared by value, since padding may or may not be copied."
  },
  {
   "property": "C66",
   "status": "proved",
   "theorems": [
    "C66_one_listing",
    "C66_sample_readable",
    "C66_sample_count",
    "C66_selected",
    "C66_check",
    "C66_alternatives",
    "C66_strict",
    "C66_or_equal",
    "C66_prefix",
    "C66_range",
    "C66_heading",
    "C66_no_heading",
    "C66_listings_read",
    "C66_orphan",
    "C66_one_reading",
    "C66_numbers"
   ],
   "note": "Text is ASCII; invoking objdump and parsing its output are left out."
  },
  {
   "property": "C67",
   "status": "proved",
   "theorems": [
    "C67_check",
    "C67_extra",
    "C67_lines",
    "C67_annotations",
    "C67_printed"
   ],
   "note": "Text is ASCII without carriage returns; a program or file that cannot be opened is left out."
  },
  {
   "property": "C68",
   "status": "proved",
   "theorems": [
    "C68_table",
    "C68_line",
    "C68_heading",
    "C68_name",
    "C68_numbers",
    "C68_value",
    "C68_passing",
    "C68_name_refuted",
    "C68_numbers_refuted",
    "C68_calls_refuted"
   ],
   "note": ""
  },
  {
   "property": "C69",
   "status": "partial",
   "theorems": [
    "C69_program",
    "C69_flag",
    "C69_calls",
    "C69_has_value",
    "C69_trivial",
    "C69_nested",
    "C69_nested_swap_refuted",
    "C69_sentinel_refuted"
   ],
   "note": "False of the code for swap of nested options (C69_nested_swap_refuted) and, by design, for reserved values used as values (C69_sentinel_refuted); proved for all other programs. std::optional is written from the C++23 standard; std::optional of a class with a throwing destructor is undefined. and_then, transform and the like are not part of the programs."
  },
  {
   "property": "C70",
   "status": "partial",
   "theorems": [
    "C70_value_constructor",
    "C70_option_constructor",
    "C70_value_assignment",
    "C70_option_assignment",
    "C70_accepted",
    "C70_braces_std",
    "C70_braces",
    "C70_braces_reference",
    "C70_braces_move",
    "C70_braces_value",
    "C70_braces_refuted",
    "C70_braces_reference_refuted"
   ],
   "note": "a = {} is false of the code for scalars and references to const scalars (C70_braces_refuted, C70_braces_reference_refuted); C70_braces and C70_braces_reference say exactly what is chosen. Overload resolution for {} is written out from the standard."
  },
  {
   "property": "C71",
   "status": "proved",
   "theorems": [
    "C71_chosen",
    "C71_unambiguous",
    "C71_order",
    "C71_consistent",
    "C71_mirror",
    "C71_transitive",
    "C71_converted",
    "C71_converted_refuted"
   ],
   "note": "Types whose own operators are templates that accept options are left out; operators of T are a parameter."
  },
  {
   "property": "C72",
   "status": "proved",
   "theorems": [
    "C72_accepted",
    "C72_settings",
    "C72_compiler",
    "C72_standard",
    "C72_annotations",
    "C72_complete"
   ],
   "note": "An included file is the list of macros it leaves defined; __has_attribute and the like are parameters."
  },
  {
   "property": "C73",
   "status": "partial",
   "theorems": [
    "C73_library_partial",
    "C73_file_alone_exact",
    "C73_namespace_refuted",
    "C73_missing_file_refuted",
    "C73_default_refuted"
   ],
   "note": "False of the code when OPTION_PFR_FILE is defined alone (C73_file_alone_exact, C73_namespace_refuted), for a missing file (C73_missing_file_refuted) and for the written-out default (C73_default_refuted); proved for all other settings."
  },
  {
   "property": "C74",
   "status": "proved",
   "theorems": [
    "C74_debug",
    "C74_release",
    "C74_throws",
    "C74_no_exceptions",
    "C74_same_in_every_build"
   ],
   "note": "The effect of the assertion library libassert is the parameter Handled; OPTION_VERIFY defined by the user is outside the theorems about builds."
  },
  {
   "property": "C75",
   "status": "proved",
   "theorems": [
    "C75_enabled",
    "C75_disabled",
    "C75_documented",
    "C75_documented_refuted",
    "C75_noexcept",
    "C75_value",
    "C75_equal",
    "C75_reference",
    "C75_reference_refuted",
    "C75_reference_empty_refuted",
    "C75_documented_value_refuted"
   ],
   "note": ""
  },
  {
   "property": "C76",
   "status": "proved",
   "theorems": [
    "C76_unambiguous",
    "C76_invoke",
    "C76_own_member_exact",
    "C76_own_member_refuted"
   ],
   "note": ""
  },
  {
   "property": "C77",
   "status": "partial",
   "theorems": [
    "C77_engaged",
    "C77_empty_exact",
    "C77_empty_refuted",
    "C77_end_exact",
    "C77_end_refuted"
   ],
   "note": "Proved for engaged options (C77_engaged). False of the code for empty options: C77_empty_exact says exactly which programs work, C77_empty_refuted gives std::span, ranges::next and first < last, C77_end_refuted the documented equivalent of end()."
  },
  {
   "property": "C78",
   "status": "proved",
   "theorems": [
    "C78_one_guide",
    "C78_deduced",
    "C78_made",
    "C78_layers",
    "C78_make_layers",
    "C78_make_exact",
    "C78_zip_return",
    "C78_map_exact",
    "C78_unzip_exact",
    "C78_zip_exact",
    "C78_documented_refuted"
   ],
   "note": "C78_documented_refuted lists where the documented code equivalents of map, unzip and zip differ in type from the functions. Pairs as arguments of std::tuple{...} and classes derived from option are not modelled."
  },
  {
   "property": "C79",
   "status": "proved",
   "theorems": [
    "C79_text_members",
    "C79_text_two",
    "C79_copy_constructor",
    "C79_move_constructor",
    "C79_copy_assignment",
    "C79_move_assignment",
    "C79_value_assignment",
    "C79_emplace",
    "C79_try_emplace",
    "C79_swap",
    "C79_take",
    "C79_take_if",
    "C79_has_value_and",
    "C79_inspect",
    "C79_filter",
    "C79_or_else",
    "C79_or",
    "C79_xor",
    "C79_or_assign_copy",
    "C79_or_assign_move",
    "C79_or_assign_value",
    "C79_and",
    "C79_and_then",
    "C79_map",
    "C79_map_or",
    "C79_map_or_else",
    "C79_cast",
    "C79_conv_constructor",
    "C79_conv_assignment",
    "C79_option",
    "C79_nested",
    "C79_programs",
    "C79_recorded",
    "C79_quiet_needed_refuted"
   ],
   "note": "The 27 transcriptions are checked to be the text of docs/reference.md line by line (C79_text_members, C79_text_two). C79_quiet_needed_refuted: with unused values inside T, a constructor that writes before it throws leaves an option that claims a value, where the code equivalent leaves it empty. The other documented equivalents (zip, zip_with, get, io, at, flatten, unzip, lookup, from_nullable, as_option, hash) are covered by C52 ff. only as far as those properties go, not as text."
  },
  {
   "property": "C80",
   "status": "proved",
   "theorems": [
    "C80_references",
    "C80_emplace_own",
    "C80_emplace_own_refuted",
    "C80_apart"
   ],
   "note": ""
  },
  {
   "property": "C81",
   "status": "proved",
   "theorems": [
    "C81_filter",
    "C81_filter_stops",
    "C81_take_if",
    "C81_last",
    "C81_inside",
    "C81_nested",
    "C81_reset",
    "C81_filter_refuted"
   ],
   "note": ""
  },
  {
   "property": "C82",
   "status": "proved",
   "theorems": [
    "C82_well_formed",
    "C82_members",
    "C82_variables",
    "C82_aligned",
    "C82_programs"
   ],
   "note": ""
  },
  {
   "property": "C83",
   "status": "proved",
   "theorems": [
    "C83_run",
    "C83_record",
    "C83_start",
    "C83_targets",
    "C83_default_build",
    "C83_passed_on",
    "C83_test",
    "C83_sanitizer_ignored",
    "C83_examples_refuted",
    "C83_natstepfilter_refuted",
    "C83_install_refuted",
    "C83_traits_test_refuted",
    "C83_packages_refuted",
    "C83_versions",
    "C83_constants",
    "C83_patterns",
    "C83_guards",
    "C83_components",
    "C83_components_none"
   ],
   "note": ""
  },
  {
   "property": "C84",
   "status": "proved",
   "theorems": [
    "C84_adds",
    "C84_fetches",
    "C84_finds",
    "C84_headers",
    "C84_default_build_refuted",
    "C84_same_files_refuted",
    "C84_include_refuted"
   ],
   "note": ""
  },
  {
   "property": "C85",
   "status": "proved",
   "theorems": [
    "C85_words",
    "C85_command",
    "C85_all_compilers"
   ],
   "note": ""
  },
  {
   "property": "C86",
   "status": "proved",
   "theorems": [
    "C86_options",
    "C86_errors",
    "C86_not_passed_on"
   ],
   "note": ""
  },
  {
   "property": "C87",
   "status": "proved",
   "theorems": [
    "C87_text",
    "C87_text_zip",
    "C87_containers",
    "C87_lookup",
    "C87_from_nullable",
    "C87_variant",
    "C87_value_or",
    "C87_swap",
    "C87_get",
    "C87_flatten",
    "C87_hash",
    "C87_zip_with",
    "C87_zip",
    "C87_tuple",
    "C87_elements_undefined",
    "C87_index_undefined"
   ],
   "note": ""
  },
  {
   "property": "C88",
   "status": "proved",
   "theorems": [
    "C88_held",
    "C88_unused",
    "C88_exact",
    "C88_large_elements_refuted",
    "C88_gnu_capacity",
    "C88_gnu_capacity_refuted"
   ],
   "note": ""
  },
  {
   "property": "C89",
   "status": "proved",
   "theorems": [
    "C89_programs",
    "C89_inside_out",
    "C89_empty",
    "C89_readme_text",
    "C89_readme_bool",
    "C89_readme_float_refuted",
    "C89_readme_float_filled",
    "C89_readme_sizes",
    "C89_layers_undefined"
   ],
   "note": ""
  },
  {
   "property": "C90",
   "status": "proved",
   "theorems": [
    "C90_programs",
    "C90_operators_exact",
    "C90_mixes_exact",
    "C90_mixes_refuted",
    "C90_const",
    "C90_reference_refuted",
    "C90_assignments_exact",
    "C90_writes_exact",
    "C90_no_operator_undefined"
   ],
   "note": ""
  },
  {
   "property": "C91",
   "status": "proved",
   "theorems": [
    "C91_read",
    "C91_targets",
    "C91_possible",
    "C91_codegen",
    "C91_compilers",
    "C91_sanitized",
    "C91_widths",
    "C91_installed",
    "C91_words",
    "C91_matrix",
    "C91_linked",
    "C91_users_wait",
    "C91_external",
    "C91_external_refuted"
   ],
   "note": "C91_external and C91_external_refuted: the target of test/cmake/ExternalProject need not wait for the download."
  },
  {
   "property": "C92",
   "status": "proved",
   "theorems": [
    "C92_listed",
    "C92_tested",
    "C92_intel_refuted",
    "C92_uses"
   ],
   "note": "C92_intel_refuted: the compiler of Intel, listed as tested with sanitizers, has none."
  },
  {
   "property": "C93",
   "status": "proved",
   "theorems": [
    "C93_sound",
    "C93_known",
    "C93_clang",
    "C93_guarded",
    "C93_early_return",
    "C93_unguarded",
    "C93_loop",
    "C93_unreachable",
    "C93_converted_refuted",
    "C93_parameter_refuted",
    "C93_branch_refuted",
    "C93_handler_refuted",
    "C93_loop_false_alarm"
   ],
   "note": "The rules of Clang are read from its implementation, not from the repository. For these rules there are witnesses: C93_converted_refuted, C93_parameter_refuted, C93_branch_refuted, C93_handler_refuted, C93_loop_false_alarm."
  },
  {
   "property": "C94",
   "status": "proved",
   "theorems": [
    "C94_special",
    "C94_special_exact",
    "C94_nested",
    "C94_reset",
    "C94_swap",
    "C94_mixed",
    "C94_mixed_exact",
    "C94_mixed_refuted",
    "C94_at_exact",
    "C94_front_exact",
    "C94_back_exact",
    "C94_at_refuted",
    "C94_sentinel_exact",
    "C94_sentinel_first",
    "C94_sentinel_plain",
    "C94_sentinel_set",
    "C94_sentinel_has",
    "C94_sentinel_refuted"
   ],
   "note": "Refuted for the functions whose specification is wrong: C94_mixed_refuted (swap of different types), C94_at_refuted, C94_sentinel_refuted."
  },
  {
   "property": "C95",
   "status": "proved",
   "theorems": [
    "C95_swap",
    "C95_same"
   ],
   "note": ""
  },
  {
   "property": "C96",
   "status": "proved",
   "theorems": [
    "C96_accounted",
    "C96_elements",
    "C96_inside",
    "C96_inside_refuted",
    "C96_warning",
    "C96_quiet",
    "C96_no_warning",
    "C96_no_warning_refuted",
    "C96_unmarked_refuted"
   ],
   "note": ""
  },
  {
   "property": "C97",
   "status": "proved",
   "theorems": [
    "C97_silent",
    "C97_silent_container",
    "C97_none",
    "C97_optimised",
    "C97_merged_checks",
    "C97_check_refuted",
    "C97_at_refuted",
    "C97_level_refuted"
   ],
   "note": ""
  },
  {
   "property": "C98",
   "status": "proved",
   "theorems": [
    "C98_writes",
    "C98_reads",
    "C98_alone",
    "C98_fail",
    "C98_order",
    "C98_variables",
    "C98_observers",
    "C98_flag",
    "C98_member_refuted"
   ],
   "note": ""
  },
  {
   "property": "C99",
   "status": "proved",
   "theorems": [
    "C99_value",
    "C99_assign",
    "C99_compiles",
    "C99_lasting",
    "C99_language",
    "C99_language_rvalue",
    "C99_language_refuted",
    "C99_complete_refuted",
    "C99_derived_wrapper_refuted",
    "C99_option_refuted",
    "C99_in_place",
    "C99_in_place_refuted",
    "C99_invoke",
    "C99_invoke_same",
    "C99_from_option",
    "C99_from_option_lasting",
    "C99_from_option_outside",
    "C99_from_option_outside_refuted",
    "C99_from_option_compiles",
    "C99_from_option_compiles_refuted",
    "C99_assign_option_rvalue",
    "C99_assign_option_lvalue",
    "C99_assign_option_exact",
    "C99_assign_option_fails",
    "C99_assign_option_refuted",
    "C99_assign_option_dangles_refuted"
   ],
   "note": ""
  },
  {
   "property": "C100",
   "status": "proved",
   "theorems": [
    "C100_numbers",
    "C100_literals",
    "C100_written",
    "C100_writes",
    "C100_refuses",
    "C100_stops",
    "C100_raises",
    "C100_comparable",
    "C100_commands",
    "C100_sources"
   ],
   "note": ""
  },
  {
   "property": "C101",
   "status": "proved",
   "theorems": [
    "C101_own",
    "C101_declares",
    "C101_one_meaning",
    "C101_exact",
    "C101_old_strings",
    "C101_old_strings_refuted",
    "C101_debug",
    "C101_debug_refuted",
    "C101_parse",
    "C101_macros"
   ],
   "note": ""
  },
  {
   "property": "C102",
   "status": "proved",
   "theorems": [
    "C102_pieces",
    "C102_matches",
    "C102_names",
    "C102_functions",
    "C102_hash_refuted",
    "C102_traits_refuted"
   ],
   "note": ""
  },
  {
   "property": "C103",
   "status": "proved",
   "theorems": [
    "C103_declared",
    "C103_missing_refuted",
    "C103_headers",
    "C103_headers_refuted",
    "C103_tuple_refuted"
   ],
   "note": ""
  },
  {
   "property": "C104",
   "status": "proved",
   "theorems": [
    "C104_selected",
    "C104_compiles",
    "C104_wrapper_refuted",
    "C104_late_refuted",
    "C104_order",
    "C104_written_out",
    "C104_inner",
    "C104_only",
    "C104_inner_late",
    "C104_inner_late_refuted"
   ],
   "note": ""
  }
 ]
}