{
 "C10": {
  "note": "Bound on dump proved; load ignores it (C10_max_bytes_load_refuted)."
 },
 "C13": {
  "note": "Padding is never stripped on load (C13_padded_roundtrip_refuted)."
 },
 "C15": {
  "note": "The documented behaviour is violated; what the code does is proved and the contract refuted."
 },
 "C21": {
  "note": "Load and assignment proved; 'always this value when dumped' is refuted."
 },
 "C23": {
  "note": "The documented contract is violated (one trailing byte accepted); exact behaviour proved."
 },
 "C26": {
  "note": "Rule proved; factory-only defaults are ignored (C26_factory_refuted)."
 },
 "C27": {
  "note": "The class of schemas is holds_struct (SpecRound.v). Left out because the code does not round-trip them: padded strings (C13_padded_roundtrip_refuted), StringZ values containing NUL, values that look like null, values of discarded fields. Also left out: narrow floats, sub-second timestamps, arrays with a halt check, nullable structs holding a value."
 },
 "C30": {
  "note": "Exact characterisation proved; truncated StringZ and references to discard fields refute the naive reading."
 },
 "C32": {
  "note": "Holds when the fields before have a fixed extent on the wire, the field does not refer to others and is not discarded (or no preceding field is a discard field, for variable offsets). C32_conditions_needed_refuted shows the failures otherwise: size references, absent optional fields, sized StringZ."
 },
 "C33": {
  "note": "Exact characterisations are unconditional; the prefix and success theorems cover fields that are dumped without looking at other fields. References to other fields fail in partial_dump (C33_size_reference_fails, C33_references_refuted)."
 },
 "C34": {
  "note": "get_size/len agree with the dump for fixed-size structs and for measurable fields; C34_get_size_refuted shows the code's get_size counts defaults of unsized fields and len counts absent fields."
 },
 "C39": {
  "note": "Lists and generators, exact error; a generator under a negative count is dumped in full (C39_negative_count_refuted). Generators are modelled as the finite list they yield."
 },
 "C40": {
  "note": "Exact characterisation for arrays without a custom halt_check."
 },
 "C41": {
  "note": "Termination under the stated conditions and divergence (no fuel suffices) for the two problem cases."
 },
 "C42": {
  "note": "read_int, write_int, peek_bytes, iter_bytes."
 },
 "C44": {
  "note": "Dump applies the chosen field's to_stream; load equals loading the field without const/validators/presence/null; contract refuted."
 },
 "C45": {
  "note": "Exact behaviour proved; 'a set value is dumped' refuted."
 },
 "C46": {
  "note": "Exact behaviour proved; 'the context decides' refuted."
 },
 "C47": {
  "note": "Equality on results: stated for comparisons that return an answer; C47_answers says when they do, C47_raises_with_len when they raise (list(self) consults __len__). Structs of different classes with equal set values compare equal."
 },
 "C50": {
  "note": "Second resolution: proved for every whole-second datetime in range, aware or naive (naive: local zone taken to be UTC). Finer resolutions: exact round trip refuted; proved that between 1970 and 2096 at most one unit is lost (ms, us). The nanosecond resolution and earlier/later dates have no error bound."
 },
 "C51": {
  "note": "Includes the exact set of doubles for which Float16/Float32 raise OverflowError."
 },
 "C37": {
  "note": "Offsets: proved when no unsized field has a default; otherwise a subclass's offsets rest on the default (C37_offset_refuted)."
 },
 "C48": {
  "note": "Root classes equal their assigned form; under inheritance positions and offsets restart at 0 (C48_inheritance_refuted)."
 },
 "C49": {
  "note": "Also: the other classes fail with AttributeError when given const without size."
 },
 "C54": {
  "note": "The documented behaviour is violated; what the code does is proved."
 },
 "C56": {
  "note": "Violated round trip; exact behaviour proved."
 },
 "C57": {
  "note": "For the round-trip class of C27."
 },
 "C58": {
  "note": "Violated for text-like fields (C58_text_refuted); exact set of escaping exceptions proved."
 },
 "C59": {
  "note": "Recursive classes (a struct containing itself through a union) are outside the hypothesis."
 },
 "C62": {
  "note": "Proved for self-delimiting schemas (SpecLocal.v); C62_greedy_refuted shows the violation for sizes that may be negative."
 },
 "C63": {
  "note": "Proved for canonical schemas (SpecCanon.v); C63_forms_refuted and C63_nested_optional_refuted show what fails outside them. Timestamps in milli-, micro- or nanoseconds and NaNs are excluded."
 },
 "C64": {
  "note": "Proved under the stated provisos; C64_unconditional_refuted shows the loss without them."
 },
 "C65": {
  "note": "Exact behaviour proved; the violated parts of the Mapping contract are in the _refuted theorems. The mixin methods are those of CPython's collections.abc."
 },
 "C67": {
  "note": "The violated part (nearest number in narrow fields) is the _refuted theorem."
 },
 "C68": {
  "note": "Exact for texts without the letter u after the prefix (elsewhere str.replace could remove more)."
 },
 "C69": {
  "note": "Strings given to canonical-text UUID fields are in C68; Struct values are not covered."
 },
 "C72": {
  "note": "The violated part (after 2038) is the _refuted theorem."
 },
 "C73": {
  "note": "The two circle theorems show that the hypothesis matters."
 },
 "C74": {
  "note": "The _refuted theorems show where other exceptions come out."
 },
 "C75": {
  "note": "Timestamps at whole seconds (nanosecond ones: C72), floats without rounding (C51); the rest of a float's range is C50-C52."
 },
 "C76": {
  "note": "C76_roundtrip_equal_refuted and C76_self_equal_refuted record what one would expect and does not hold."
 },
 "C77": {
  "note": "C77_machine_independent_refuted: without a mark the result depends on the machine."
 },
 "C78": {
  "note": "C78_redump_refuted: cp875 has seven bytes for one character."
 },
 "C79": {
  "note": "C79_removed_round_trip_refuted: a check that removes the sentinel."
 }
}
