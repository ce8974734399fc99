{
 "claims": [
  {
   "property": "C01",
   "status": "proved",
   "theorems": [
    "C01_vli_field_roundtrip",
    "C01_varint_roundtrip",
    "C01_varint_domain"
   ],
   "note": ""
  },
  {
   "property": "C02",
   "status": "proved",
   "theorems": [
    "C02_varint_shape",
    "C02_varint_prefix_free",
    "C02_varint_sequence"
   ],
   "note": ""
  },
  {
   "property": "C03",
   "status": "proved",
   "theorems": [
    "C03_vli_field_rejects",
    "C03_unsigned_rejects",
    "C03_signed_total"
   ],
   "note": ""
  },
  {
   "property": "C04",
   "status": "proved",
   "theorems": [
    "C04_minimal",
    "C04_leb128_minimal",
    "C04_leb128_exception"
   ],
   "note": ""
  },
  {
   "property": "C05",
   "status": "proved",
   "theorems": [
    "C05_decode_total"
   ],
   "note": ""
  },
  {
   "property": "C06",
   "status": "proved",
   "theorems": [
    "C06_integer_roundtrip",
    "C06_integer_layout",
    "C06_integer_big_is_reversed"
   ],
   "note": ""
  },
  {
   "property": "C07",
   "status": "proved",
   "theorems": [
    "C07_integer_in_range",
    "C07_integer_out_of_range"
   ],
   "note": ""
  },
  {
   "property": "C08",
   "status": "proved",
   "theorems": [
    "C08_integer_bijection"
   ],
   "note": ""
  },
  {
   "property": "C09",
   "status": "proved",
   "theorems": [
    "C09_short_input",
    "C09_short_input_ref",
    "C09_short_input_uuid"
   ],
   "note": ""
  },
  {
   "property": "C10",
   "status": "proved",
   "theorems": [
    "C10_max_bytes_dump",
    "C10_max_bytes_reject",
    "C10_max_bytes_ignored_on_load",
    "C10_max_bytes_load_refuted"
   ],
   "note": "Bound on dump proved; load ignores it (C10_max_bytes_load_refuted)."
  },
  {
   "property": "C11",
   "status": "proved",
   "theorems": [
    "C11_bytes_dump",
    "C11_bytes_load",
    "C11_bytes_negative_size"
   ],
   "note": ""
  },
  {
   "property": "C12",
   "status": "proved",
   "theorems": [
    "C12_string_dump"
   ],
   "note": ""
  },
  {
   "property": "C13",
   "status": "proved",
   "theorems": [
    "C13_string_roundtrip",
    "C13_string_padding_kept",
    "C13_padded_roundtrip_refuted"
   ],
   "note": "Padding is never stripped on load (C13_padded_roundtrip_refuted)."
  },
  {
   "property": "C14",
   "status": "proved",
   "theorems": [
    "C14_cut",
    "C14_stringz_roundtrip",
    "C14_stringz_embedded_nul",
    "C14_stringz_sized_dump",
    "C14_stringz_sized_load"
   ],
   "note": ""
  },
  {
   "property": "C15",
   "status": "proved",
   "theorems": [
    "C15_stringz_default_limits_load",
    "C15_stringz_default_within",
    "C15_stringz_default_roundtrip_refuted"
   ],
   "note": "The documented behaviour is violated; what the code does is proved and the contract refuted."
  },
  {
   "property": "C16",
   "status": "proved",
   "theorems": [
    "C16_uuid_dump",
    "C16_uuid_layout"
   ],
   "note": ""
  },
  {
   "property": "C17",
   "status": "proved",
   "theorems": [
    "C17_dump_size",
    "C17_none_ignores_size"
   ],
   "note": ""
  },
  {
   "property": "C18",
   "status": "proved",
   "theorems": [
    "C18_failed_dump_writes_nothing"
   ],
   "note": ""
  },
  {
   "property": "C19",
   "status": "proved",
   "theorems": [
    "C19_null_error",
    "C19_unsized_text",
    "C19_unsized_none",
    "C19_unsized_time",
    "C19_none_dump",
    "C19_none_load",
    "C19_none_refused",
    "C19_none_as_value",
    "C19_default_unsized_dump",
    "C19_default_unsized_load"
   ],
   "note": ""
  },
  {
   "property": "C20",
   "status": "proved",
   "theorems": [
    "C20_value_survives_iff",
    "C20_null_prefix_gives_none",
    "C20_null_value_gives_none",
    "C20_integer_roundtrip_iff",
    "C20_integer_null_value"
   ],
   "note": ""
  },
  {
   "property": "C21",
   "status": "proved",
   "theorems": [
    "C21_load_ok_only_const",
    "C21_load_mismatch",
    "C21_assignment_fails",
    "C21_const_on_dump_refuted"
   ],
   "note": "Load and assignment proved; 'always this value when dumped' is refuted."
  },
  {
   "property": "C22",
   "status": "proved",
   "theorems": [
    "C22_exact_iff",
    "C22_leftover",
    "C22_to_bytes",
    "C22_struct_to_bytes"
   ],
   "note": ""
  },
  {
   "property": "C23",
   "status": "proved",
   "theorems": [
    "C23_leftover",
    "C23_exact_accepts_one_byte_refuted"
   ],
   "note": "The documented contract is violated (one trailing byte accepted); exact behaviour proved."
  },
  {
   "property": "C24",
   "status": "proved",
   "theorems": [
    "C24_load_validated",
    "C24_dump_validated",
    "C24_dump_rejected",
    "C24_load_rejected",
    "C24_struct_dump_validated",
    "C24_struct_load_validated",
    "C24_struct_dump_rejected"
   ],
   "note": ""
  },
  {
   "property": "C25",
   "status": "proved",
   "theorems": [
    "C25_absent_load",
    "C25_absent_dump"
   ],
   "note": ""
  },
  {
   "property": "C26",
   "status": "proved",
   "theorems": [
    "C26_explicit",
    "C26_default",
    "C26_computed",
    "C26_missing",
    "C26_not_present_value",
    "C26_absent_explicit",
    "C26_absent_unset",
    "C26_no_value",
    "C26_factory_refuted"
   ],
   "note": "Rule proved; factory-only defaults are ignored (C26_factory_refuted)."
  },
  {
   "property": "C27",
   "status": "proved",
   "theorems": [
    "C27_struct_roundtrip",
    "C27_bytes_roundtrip"
   ],
   "note": "The class of schemas is holds_struct (SpecRound.v). Left out because the code does not round-trip them: padded strings (C13_padded_roundtrip_refuted), StringZ values containing NUL, values that look like null, values of discarded fields. Also left out: narrow floats, sub-second timestamps, arrays with a halt check, nullable structs holding a value."
  },
  {
   "property": "C28",
   "status": "proved",
   "theorems": [
    "C28_dump_is_concatenation",
    "C28_failed_dump_prefix"
   ],
   "note": ""
  },
  {
   "property": "C29",
   "status": "proved",
   "theorems": [
    "C29_load_in_order",
    "C29_init_kwargs_win",
    "C29_loaded_value",
    "C29_unknown_name",
    "C29_first_failure"
   ],
   "note": ""
  },
  {
   "property": "C30",
   "status": "proved",
   "theorems": [
    "C30_unknown_field",
    "C30_partial_load",
    "C30_partial_load_last",
    "C30_prefix_of_full_load",
    "C30_truncated_stringz_refuted",
    "C30_discard_reference_refuted"
   ],
   "note": "Exact characterisation proved; truncated StringZ and references to discard fields refute the naive reading."
  },
  {
   "property": "C31",
   "status": "proved",
   "theorems": [
    "C31_unknown_field",
    "C31_before_the_start",
    "C31_get_field_restores"
   ],
   "note": ""
  },
  {
   "property": "C32",
   "status": "proved",
   "theorems": [
    "C32_fixed_offset",
    "C32_variable_offset",
    "C32_leaf_extent",
    "C32_array_extent",
    "C32_nested_extent",
    "C32_no_references",
    "C32_conditions_needed_refuted"
   ],
   "note": "Holds when the fields before have a fixed extent on the wire, the field does not refer to others and is not discarded (or no preceding field is a discard field, for variable offsets). C32_conditions_needed_refuted shows the failures otherwise: size references, absent optional fields, sized StringZ."
  },
  {
   "property": "C33",
   "status": "proved",
   "theorems": [
    "C33_up_to_field",
    "C33_up_to_missing",
    "C33_prefix",
    "C33_succeeds",
    "C33_no_references",
    "C33_size_reference_fails",
    "C33_references_refuted"
   ],
   "note": "Exact characterisations are unconditional; the prefix and success theorems cover fields that are dumped without looking at other fields. References to other fields fail in partial_dump (C33_size_reference_fails, C33_references_refuted)."
  },
  {
   "property": "C34",
   "status": "proved",
   "theorems": [
    "C34_get_size",
    "C34_get_size_sum",
    "C34_get_size_none",
    "C34_get_size_raises",
    "C34_fixed_dump",
    "C34_len_fixed",
    "C34_len_negative",
    "C34_len",
    "C34_get_size_refuted"
   ],
   "note": "get_size/len agree with the dump for fixed-size structs and for measurable fields; C34_get_size_refuted shows the code's get_size counts defaults of unsized fields and len counts absent fields."
  },
  {
   "property": "C35",
   "status": "proved",
   "theorems": [
    "C35_history",
    "C35_last_write",
    "C35_other_fields",
    "C35_read_stored",
    "C35_read_default",
    "C35_read_computed",
    "C35_unknown_write",
    "C35_unknown_read",
    "C35_immutable_raises",
    "C35_immutable",
    "C35_instances",
    "C35_iteration"
   ],
   "note": ""
  },
  {
   "property": "C36",
   "status": "proved",
   "theorems": [
    "C36_keys",
    "C36_no_structs"
   ],
   "note": ""
  },
  {
   "property": "C37",
   "status": "proved",
   "theorems": [
    "C37_class_creation",
    "C37_numbered",
    "C37_placed",
    "C37_well_formed",
    "C37_redefined",
    "C37_multiple_bases",
    "C37_name_mismatch",
    "C37_offset_refuted"
   ],
   "note": "Offsets: proved when no unsized field has a default; otherwise a subclass's offsets rest on the default (C37_offset_refuted)."
  },
  {
   "property": "C38",
   "status": "proved",
   "theorems": [
    "C38_precedence",
    "C38_others_unaffected",
    "C38_nothing_else",
    "C38_constructor",
    "C38_table"
   ],
   "note": ""
  },
  {
   "property": "C39",
   "status": "proved",
   "theorems": [
    "C39_list_dump",
    "C39_generator_dump",
    "C39_wrong_length",
    "C39_generator_too_long",
    "C39_generator_too_short",
    "C39_generator_unread",
    "C39_negative_count_refuted"
   ],
   "note": "Lists and generators, exact error; a generator under a negative count is dumped in full (C39_negative_count_refuted). Generators are modelled as the finite list they yield."
  },
  {
   "property": "C40",
   "status": "proved",
   "theorems": [
    "C40_counted_load",
    "C40_uncounted_load",
    "C40_stops_at_end",
    "C40_unknown_count",
    "C40_unknown_count_dump"
   ],
   "note": "Exact characterisation for arrays without a custom halt_check."
  },
  {
   "property": "C41",
   "status": "proved",
   "theorems": [
    "C41_uncounted_terminates",
    "C41_counted_terminates",
    "C41_absent_component_diverges",
    "C41_zero_byte_component_diverges"
   ],
   "note": "Termination under the stated conditions and divergence (no fuel suffices) for the two problem cases."
  },
  {
   "property": "C42",
   "status": "proved",
   "theorems": [
    "C42_read_write_int",
    "C42_write_int_fail",
    "C42_write_read_int",
    "C42_read_int_eof",
    "C42_peek_bytes",
    "C42_iter_bytes"
   ],
   "note": "read_int, write_int, peek_bytes, iter_bytes."
  },
  {
   "property": "C43",
   "status": "proved",
   "theorems": [
    "C43_field_load_forward",
    "C43_struct_load_forward",
    "C43_partial_load_forward",
    "C43_inside"
   ],
   "note": ""
  },
  {
   "property": "C44",
   "status": "proved",
   "theorems": [
    "C44_dump_checks",
    "C44_dump_struct",
    "C44_load_unchecked",
    "C44_load_checks_refuted",
    "C44_load_no_choice"
   ],
   "note": "Dump applies the chosen field's to_stream; load equals loading the field without const/validators/presence/null; contract refuted."
  },
  {
   "property": "C45",
   "status": "proved",
   "theorems": [
    "C45_load_drops",
    "C45_not_in_dict",
    "C45_dumps_default",
    "C45_no_default_fails",
    "C45_set_value_dumped_refuted"
   ],
   "note": "Exact behaviour proved; 'a set value is dumped' refuted."
  },
  {
   "property": "C46",
   "status": "proved",
   "theorems": [
    "C46_context_ignored",
    "C46_context_decides_refuted"
   ],
   "note": "Exact behaviour proved; 'the context decides' refuted."
  },
  {
   "property": "C47",
   "status": "proved",
   "theorems": [
    "C47_equality_of_set_values",
    "C47_reflexive",
    "C47_symmetric",
    "C47_transitive",
    "C47_same_values_equal",
    "C47_answers",
    "C47_raises_with_len",
    "C47_undefined",
    "C47_other_types_differ"
   ],
   "note": "Equality on results: stated for comparisons that return an answer; C47_answers says when they do, C47_raises_with_len when they raise (list(self) consults __len__). Structs of different classes with equal set values compare equal."
  },
  {
   "property": "C48",
   "status": "proved",
   "theorems": [
    "C48_same_as_assignment",
    "C48_restarts_at_zero",
    "C48_inheritance_refuted",
    "C48_subclass_of_dataclass",
    "C48_hint_order",
    "C48_hint_replaced",
    "C48_mixed",
    "C48_no_fields",
    "C48_two_fields",
    "C48_union",
    "C48_ignored"
   ],
   "note": "Root classes equal their assigned form; under inheritance positions and offsets restart at 0 (C48_inheritance_refuted)."
  },
  {
   "property": "C49",
   "status": "proved",
   "theorems": [
    "C49_size_from_const",
    "C49_unencodable",
    "C49_other_classes",
    "C49_attribute_error"
   ],
   "note": "Also: the other classes fail with AttributeError when given const without size."
  },
  {
   "property": "C50",
   "status": "proved",
   "theorems": [
    "C50_outside",
    "C50_far",
    "C50_first_day",
    "C50_overflow",
    "C50_seconds_roundtrip",
    "C50_fine_loses_at_most_one_unit",
    "C50_seconds_stored",
    "C50_fine_stored",
    "C50_fine_loaded",
    "C50_fine_roundtrip_refuted",
    "C50_whole_seconds_stored",
    "C50_whole_seconds_roundtrip"
   ],
   "note": "Second resolution: proved for every whole-second datetime in range, aware or naive (naive: local zone taken to be UTC). Finer resolutions: exact round trip refuted; proved that between 1970 and 2096 at most one unit is lost (ms, us). The nanosecond resolution and earlier/later dates have no error bound."
  },
  {
   "property": "C51",
   "status": "proved",
   "theorems": [
    "C51_double_roundtrip",
    "C51_narrow_roundtrip",
    "C51_representable",
    "C51_overflow"
   ],
   "note": "Includes the exact set of doubles for which Float16/Float32 raise OverflowError."
  },
  {
   "property": "C52",
   "status": "proved",
   "theorems": [
    "C52_float_nearest"
   ],
   "note": ""
  },
  {
   "property": "C53",
   "status": "proved",
   "theorems": [
    "C53_tables",
    "C53_complete",
    "C53_unknown_field"
   ],
   "note": ""
  },
  {
   "property": "C54",
   "status": "proved",
   "theorems": [
    "C54_no_entry",
    "C54_method_raises",
    "C54_validation_refuted"
   ],
   "note": "The documented behaviour is violated; what the code does is proved."
  },
  {
   "property": "C55",
   "status": "proved",
   "theorems": [
    "C55_float",
    "C55_uuid",
    "C55_timestamp",
    "C55_nested",
    "C55_array",
    "C55_integer",
    "C55_table",
    "C55_named_component"
   ],
   "note": ""
  },
  {
   "property": "C56",
   "status": "proved",
   "theorems": [
    "C56_default_is_size",
    "C56_roundtrip_refuted"
   ],
   "note": "Violated round trip; exact behaviour proved."
  },
  {
   "property": "C57",
   "status": "proved",
   "theorems": [
    "C57_prefix_free",
    "C57_injective",
    "C57_concatenation"
   ],
   "note": "For the round-trip class of C27."
  },
  {
   "property": "C58",
   "status": "proved",
   "theorems": [
    "C58_reported",
    "C58_bytes_reported",
    "C58_binary_schema",
    "C58_text_refuted"
   ],
   "note": "Violated for text-like fields (C58_text_refuted); exact set of escaping exceptions proved."
  },
  {
   "property": "C59",
   "status": "proved",
   "theorems": [
    "C59_total",
    "C59_bytes_total"
   ],
   "note": "Recursive classes (a struct containing itself through a union) are outside the hypothesis."
  },
  {
   "property": "C60",
   "status": "proved",
   "theorems": [
    "C60_attributes",
    "C60_omitted",
    "C60_default_and_factory",
    "C60_signedness",
    "C60_computes",
    "C60_computes_refused",
    "C60_timestamp_size",
    "C60_size_twice"
   ],
   "note": ""
  },
  {
   "property": "C61",
   "status": "proved",
   "theorems": [
    "C61_end_of_data",
    "C61_named_field"
   ],
   "note": ""
  },
  {
   "property": "C62",
   "status": "proved",
   "theorems": [
    "C62_self_delimiting",
    "C62_appended",
    "C62_consumed",
    "C62_truncated",
    "C62_sequence",
    "C62_greedy_refuted"
   ],
   "note": "Proved for self-delimiting schemas (SpecLocal.v); C62_greedy_refuted shows the violation for sizes that may be negative."
  },
  {
   "property": "C63",
   "status": "proved",
   "theorems": [
    "C63_redump",
    "C63_bytes",
    "C63_injective",
    "C63_dict",
    "C63_forms_refuted",
    "C63_nested_optional_refuted"
   ],
   "note": "Proved for canonical schemas (SpecCanon.v); C63_forms_refuted and C63_nested_optional_refuted show what fails outside them. Timestamps in milli-, micro- or nanoseconds and NaNs are excluded."
  },
  {
   "property": "C64",
   "status": "proved",
   "theorems": [
    "C64_same_dict",
    "C64_same_dump",
    "C64_accepted",
    "C64_unconditional_refuted"
   ],
   "note": "Proved under the stated provisos; C64_unconditional_refuted shows the loss without them."
  },
  {
   "property": "C65",
   "status": "proved",
   "theorems": [
    "C65_set_names",
    "C65_unknown_names",
    "C65_unset_names",
    "C65_key_error",
    "C65_required_names",
    "C65_get_default_refuted",
    "C65_setdefault_refuted",
    "C65_items",
    "C65_len_refuted",
    "C65_popitem",
    "C65_popitem_empty",
    "C65_clear",
    "C65_update",
    "C65_update_stops",
    "C65_equality",
    "C65_equality_others",
    "C65_equal_dict_refuted"
   ],
   "note": "Exact behaviour proved; the violated parts of the Mapping contract are in the _refuted theorems. The mixin methods are those of CPython's collections.abc."
  },
  {
   "property": "C66",
   "status": "proved",
   "theorems": [
    "C66_signed",
    "C66_little",
    "C66_big"
   ],
   "note": ""
  },
  {
   "property": "C67",
   "status": "proved",
   "theorems": [
    "C67_ties_to_even",
    "C67_integers",
    "C67_integers_exact",
    "C67_integers_narrow",
    "C67_integers_nearest_refuted"
   ],
   "note": "The violated part (nearest number in narrow fields) is the _refuted theorem."
  },
  {
   "property": "C68",
   "status": "proved",
   "theorems": [
    "C68_accepted",
    "C68_wrong_length",
    "C68_exactly",
    "C68_dumps_text",
    "C68_dumps_integer",
    "C68_decimal",
    "C68_strict_refuted"
   ],
   "note": "Exact for texts without the letter u after the prefix (elsewhere str.replace could remove more)."
  },
  {
   "property": "C69",
   "status": "proved",
   "theorems": [
    "C69_refused",
    "C69_no_size",
    "C69_floats",
    "C69_floats_refuted",
    "C69_comparison_refuted",
    "C69_containers"
   ],
   "note": "Strings given to canonical-text UUID fields are in C68; Struct values are not covered."
  },
  {
   "property": "C70",
   "status": "proved",
   "theorems": [
    "C70_foreign_errors_escape",
    "C70_only_own_errors_skipped"
   ],
   "note": ""
  },
  {
   "property": "C71",
   "status": "proved",
   "theorems": [
    "C71_annotation",
    "C71_needs_more",
    "C71_attribute",
    "C71_no_attribute",
    "C71_struct_class"
   ],
   "note": ""
  },
  {
   "property": "C72",
   "status": "proved",
   "theorems": [
    "C72_roundtrip",
    "C72_stored",
    "C72_loaded",
    "C72_later_refuted"
   ],
   "note": "The violated part (after 2038) is the _refuted theorem."
  },
  {
   "property": "C73",
   "status": "proved",
   "theorems": [
    "C73_dump",
    "C73_partial_dump",
    "C73_field",
    "C73_to_dict",
    "C73_get",
    "C73_validate",
    "C73_len",
    "C73_size",
    "C73_equal",
    "C73_computed_circle",
    "C73_default_circle"
   ],
   "note": "The two circle theorems show that the hypothesis matters."
  },
  {
   "property": "C74",
   "status": "proved",
   "theorems": [
    "C74_struct",
    "C74_to_bytes",
    "C74_field",
    "C74_partial_dump",
    "C74_validate",
    "C74_to_dict",
    "C74_incomplete_refuted",
    "C74_nested_incomplete_refuted",
    "C74_not_present_refuted"
   ],
   "note": "The _refuted theorems show where other exceptions come out."
  },
  {
   "property": "C75",
   "status": "proved",
   "theorems": [
    "C75_field",
    "C75_struct",
    "C75_instance",
    "C75_unique",
    "C75_read"
   ],
   "note": "Timestamps at whole seconds (nanosecond ones: C72), floats without rounding (C51); the rest of a float's range is C50-C52."
  },
  {
   "property": "C76",
   "status": "proved",
   "theorems": [
    "C76_equal_after",
    "C76_roundtrip_equal_refuted",
    "C76_self_equal_refuted"
   ],
   "note": "C76_roundtrip_equal_refuted and C76_self_equal_refuted record what one would expect and does not hold."
  },
  {
   "property": "C77",
   "status": "proved",
   "theorems": [
    "C77_string_written",
    "C77_stringz_written",
    "C77_string_read",
    "C77_stringz_read",
    "C77_rewritten",
    "C77_unmarked_string",
    "C77_unmarked_sig",
    "C77_unmarked_stringz",
    "C77_stringz_needs_mark",
    "C77_cut_mark",
    "C77_cut_mark_bad",
    "C77_machine_independent_refuted"
   ],
   "note": "C77_machine_independent_refuted: without a mark the result depends on the machine."
  },
  {
   "property": "C78",
   "status": "proved",
   "theorems": [
    "C78_page_read",
    "C78_page_written",
    "C78_redump",
    "C78_redump_refuted"
   ],
   "note": "C78_redump_refuted: cp875 has seven bytes for one character."
  },
  {
   "property": "C79",
   "status": "proved",
   "theorems": [
    "C79_halt_check",
    "C79_halt_errors",
    "C79_sentinel",
    "C79_sentinel_loaded",
    "C79_sentinel_removed",
    "C79_removed_round_trip_refuted",
    "C79_iterable"
   ],
   "note": "C79_removed_round_trip_refuted: a check that removes the sentinel."
  },
  {
   "property": "C80",
   "status": "proved",
   "theorems": [
    "C80_reads",
    "C80_reads_one",
    "C80_struct_callable",
    "C80_dict_callable",
    "C80_present",
    "C80_to_dict",
    "C80_validators"
   ],
   "note": ""
  },
  {
   "property": "C81",
   "status": "proved",
   "theorems": [
    "C81_created",
    "C81_dataclass",
    "C81_load",
    "C81_read",
    "C81_to_dict",
    "C81_dump",
    "C81_must_be_closed"
   ],
   "note": ""
  },
  {
   "property": "C82",
   "status": "proved",
   "theorems": [
    "C82_truncated",
    "C82_truncated_field",
    "C82_partial_load",
    "C82_null_terminated"
   ],
   "note": ""
  },
  {
   "property": "C83",
   "status": "proved",
   "theorems": [
    "C83_unaffected",
    "C83_read",
    "C83_one_field",
    "C83_overwritten",
    "C83_assign",
    "C83_must_be_independent"
   ],
   "note": ""
  },
  {
   "property": "C84",
   "status": "proved",
   "theorems": [
    "C84_old_data",
    "C84_upgrade",
    "C84_must_need_data"
   ],
   "note": ""
  },
  {
   "property": "C85",
   "status": "proved",
   "theorems": [
    "C85_in_range",
    "C85_wav_data_read",
    "C85_wav_data_written",
    "C85_wav_too_long",
    "C85_wav_format_read",
    "C85_wav_format_written",
    "C85_wav_format_rewritten",
    "C85_wav_header_read",
    "C85_wav_file",
    "C85_bmp_read",
    "C85_bmp_written",
    "C85_bmp_rewritten",
    "C85_cpio_written",
    "C85_cpio_defaults",
    "C85_cpio_read"
   ],
   "note": ""
  },
  {
   "property": "C86",
   "status": "proved",
   "theorems": [
    "C86_instance",
    "C86_instance_fails",
    "C86_dict",
    "C86_unknown",
    "C86_load",
    "C86_load_fails",
    "C86_in_struct",
    "C86_in_struct_fields",
    "C86_in_struct_same",
    "C86_own_class_refuted"
   ],
   "note": ""
  },
  {
   "property": "C87",
   "status": "proved",
   "theorems": [
    "C87_settles",
    "C87_bytes",
    "C87_stream",
    "C87_nullable_refuted",
    "C87_max_bytes_refuted",
    "C87_timestamps_refuted"
   ],
   "note": ""
  },
  {
   "property": "C88",
   "status": "proved",
   "theorems": [
    "C88_dumped",
    "C88_loaded",
    "C88_seconds",
    "C88_gap",
    "C88_utc_dump",
    "C88_utc_load",
    "C88_gap_refuted",
    "C88_moved_refuted"
   ],
   "note": ""
  },
  {
   "property": "C89",
   "status": "proved",
   "theorems": [
    "C89_up_to_field",
    "C89_incomplete",
    "C89_completed",
    "C89_end_refuted"
   ],
   "note": ""
  },
  {
   "property": "C90",
   "status": "proved",
   "theorems": [
    "C90_parsed",
    "C90_refused",
    "C90_written",
    "C90_round_trip",
    "C90_one_text",
    "C90_parsed_proper",
    "C90_normal",
    "C90_pep440_refuted"
   ],
   "note": ""
  },
  {
   "property": "C91",
   "status": "proved",
   "theorems": [
    "C91_names",
    "C91_names_end",
    "C91_field",
    "C91_field_identified",
    "C91_field_repr_identified",
    "C91_default",
    "C91_default_doc",
    "C91_config",
    "C91_config_given",
    "C91_config_generic",
    "C91_eof",
    "C91_eof_identified",
    "C91_array",
    "C91_array_identified",
    "C91_unexpected",
    "C91_unexpected_identified",
    "C91_reference_identified",
    "C91_extraneous",
    "C91_extraneous_struct",
    "C91_extraneous_struct_refuted",
    "C91_multiple_inheritance_refuted",
    "C91_recursion_refuted"
   ],
   "note": ""
  },
  {
   "property": "C92",
   "status": "proved",
   "theorems": [
    "C92_field_class",
    "C92_struct_class",
    "C92_instance",
    "C92_union",
    "C92_nothing",
    "C92_optional_refuted",
    "C92_decorators",
    "C92_misused",
    "C92_body",
    "C92_stacked_refuted"
   ],
   "note": ""
  },
  {
   "property": "C93",
   "status": "proved",
   "theorems": [
    "C93_to_dict_only_adds",
    "C93_to_dict_snapshot",
    "C93_to_dict_detached",
    "C93_to_dict_plain",
    "C93_copies",
    "C93_to_dict_keys",
    "C93_to_dict_entry",
    "C93_objects",
    "C93_attribute_set",
    "C93_attribute_unset",
    "C93_to_dict_every_entry",
    "C93_assignment",
    "C93_assignment_accepted",
    "C93_assignment_refused",
    "C93_deletion",
    "C93_deletion_local",
    "C93_separate_instances",
    "C93_constructor_shares",
    "C93_default_shared",
    "C93_bytearray_snapshot_refuted",
    "C93_constructor_copies_refuted",
    "C93_instances_independent_refuted",
    "C93_constant_fixed_refuted"
   ],
   "note": ""
  },
  {
   "property": "C94",
   "status": "proved",
   "theorems": [
    "C94_bytesio",
    "C94_bytesio_field",
    "C94_short_reads",
    "C94_short_reads_field",
    "C94_bytewise",
    "C94_bytewise_field",
    "C94_sequential",
    "C94_uuid",
    "C94_needs_tell",
    "C94_struct_needs_tell",
    "C94_nullable_needs_tell",
    "C94_eof_truthful_refuted",
    "C94_nullable_refuted"
   ],
   "note": ""
  },
  {
   "property": "C95",
   "status": "proved",
   "theorems": [
    "C95_builtin_to_stream",
    "C95_builtin_from_stream",
    "C95_builtin_struct_to_stream",
    "C95_builtin_struct_from_stream",
    "C95_builtin_array",
    "C95_to_stream",
    "C95_to_stream_none",
    "C95_all_or_nothing",
    "C95_do_dump_called",
    "C95_from_stream",
    "C95_load_error",
    "C95_field_roundtrip",
    "C95_struct_roundtrip",
    "C95_array",
    "C95_nested",
    "C95_union",
    "C95_from_bytes",
    "C95_expected_size",
    "C95_null_repr",
    "C95_load_size_refuted",
    "C95_dump_size_refuted"
   ],
   "note": ""
  },
  {
   "property": "C96",
   "status": "proved",
   "theorems": [
    "C96_reliable",
    "C96_reliable_struct",
    "C96_reliable_partial_dump",
    "C96_one_write",
    "C96_struct_writes",
    "C96_write_error",
    "C96_prefix",
    "C96_prefix_partial_dump",
    "C96_short_writes_refuted"
   ],
   "note": ""
  },
  {
   "property": "C97",
   "status": "proved",
   "theorems": [
    "C97_repr",
    "C97_one_reading",
    "C97_repr_determines",
    "C97_required_default",
    "C97_required_missing",
    "C97_objclass",
    "C97_objclass_defines_refuted",
    "C97_required_must_be_given_refuted",
    "C97_not_required_refuted"
   ],
   "note": ""
  },
  {
   "property": "C98",
   "status": "proved",
   "theorems": [
    "C98_steady",
    "C98_one_dictionary",
    "C98_set_values",
    "C98_set_values_validated",
    "C98_validated_refuted"
   ],
   "note": ""
  },
  {
   "property": "C99",
   "status": "proved",
   "theorems": [
    "C99_same_or_warned",
    "C99_same_or_warned_field",
    "C99_to_dict_quiet",
    "C99_quiet",
    "C99_dates",
    "C99_loaded_dates",
    "C99_never_warns_refuted"
   ],
   "note": ""
  },
  {
   "property": "C100",
   "status": "proved",
   "theorems": [
    "C100_set_values",
    "C100_written",
    "C100_exponential"
   ],
   "note": ""
  },
  {
   "property": "C101",
   "status": "proved",
   "theorems": [
    "C101_dump",
    "C101_load",
    "C101_fields",
    "C101_parts",
    "C101_values",
    "C101_reversed",
    "C101_class_default",
    "C101_class_default_refuted",
    "C101_any_host_refuted"
   ],
   "note": ""
  },
  {
   "property": "C102",
   "status": "proved",
   "theorems": [
    "C102_put_back",
    "C102_data",
    "C102_ahead",
    "C102_absent",
    "C102_present",
    "C102_decided",
    "C102_halted",
    "C102_ends_refuted",
    "C102_round_trip_refuted"
   ],
   "note": ""
  },
  {
   "property": "C103",
   "status": "proved",
   "theorems": [
    "C103_load",
    "C103_load_endless",
    "C103_load_nothing",
    "C103_dump_whole",
    "C103_dump_sized",
    "C103_dump_generator",
    "C103_alike_refuted",
    "C103_reload_refuted"
   ],
   "note": ""
  },
  {
   "property": "C104",
   "status": "proved",
   "theorems": [
    "C104_builtin_string",
    "C104_builtin_stringz",
    "C104_where_it_ends",
    "C104_own_bytes",
    "C104_own_bytes_text",
    "C104_tables",
    "C104_string_dump",
    "C104_string_load",
    "C104_string_roundtrip",
    "C104_fields",
    "C104_utf7_text",
    "C104_utf7_stringz",
    "C104_utf7_roundtrip",
    "C104_utf7_more",
    "C104_utf7_alone",
    "C104_utf7_refuted"
   ],
   "note": ""
  },
  {
   "property": "C105",
   "status": "proved",
   "theorems": [
    "C105_nobody_writes",
    "C105_first_wins",
    "C105_only_fields",
    "C105_stray_entry",
    "C105_nested_apart",
    "C105_absent",
    "C105_present",
    "C105_decided",
    "C105_recounted",
    "C105_count_refuted",
    "C105_read_refuted"
   ],
   "note": ""
  },
  {
   "property": "C106",
   "status": "proved",
   "theorems": [
    "C106_nobody_writes",
    "C106_in_turn",
    "C106_written",
    "C106_default",
    "C106_computed",
    "C106_own_value",
    "C106_lone",
    "C106_nested_apart",
    "C106_decided",
    "C106_count",
    "C106_own_value_refuted",
    "C106_inserts_refuted"
   ],
   "note": ""
  },
  {
   "property": "C107",
   "status": "proved",
   "theorems": [
    "C107_ordinary",
    "C107_on_top",
    "C107_constructed",
    "C107_init_kwargs",
    "C107_unaware",
    "C107_missing",
    "C107_nested_fails",
    "C107_union_fails",
    "C107_partial_fails",
    "C107_get_field_fails",
    "C107_instance",
    "C107_dict",
    "C107_nested_dump_fails",
    "C107_nested_refuted",
    "C107_dump_refuted",
    "C107_unseen_refuted"
   ],
   "note": ""
  },
  {
   "property": "C108",
   "status": "proved",
   "theorems": [
    "C108_writable",
    "C108_errors",
    "C108_exact",
    "C108_settles",
    "C108_keys",
    "C108_instance",
    "C108_loaded_no_type_error",
    "C108_loaded_writable",
    "C108_loaded_exact",
    "C108_restored",
    "C108_loaded_restored",
    "C108_always_refuted",
    "C108_same_dump_refuted"
   ],
   "note": ""
  },
  {
   "property": "C109",
   "status": "proved",
   "theorems": [
    "C109_steady",
    "C109_steady_partial_load",
    "C109_asked_once",
    "C109_calls",
    "C109_all_fields",
    "C109_outcomes",
    "C109_partial_load",
    "C109_accepted",
    "C109_same_load_refuted",
    "C109_same_bytes_refuted"
   ],
   "note": ""
  },
  {
   "property": "C110",
   "status": "proved",
   "theorems": [
    "C110_alike",
    "C110_reflexive",
    "C110_symmetric",
    "C110_transitive",
    "C110_copies",
    "C110_model",
    "C110_by_value_refuted"
   ],
   "note": ""
  },
  {
   "property": "C111",
   "status": "proved",
   "theorems": [
    "C111_set_dump",
    "C111_set_to_dict",
    "C111_load",
    "C111_round_trip",
    "C111_unset_refuted",
    "C111_discarded_refuted"
   ],
   "note": ""
  },
  {
   "property": "C112",
   "status": "proved",
   "theorems": [
    "C112_read_back",
    "C112_some",
    "C112_append",
    "C112_determined"
   ],
   "note": ""
  }
 ]
}