#!/usr/bin/env python3
"""Writes ../properties.jsonl (one JSON object per line)."""
import json, os
P = []
def p(id, title, statement, quantifier, why, anchors):
    P.append(dict(id=id, title=title, statement=statement, quantifier=quantifier,
                  why_tests_cant=why, anchors=anchors))

p("C01", "Variable-length integers round-trip",
  "For each of the four encodings (VLQ, compact/signed VLQ, ULEB128, LEB128), decoding the bytes produced by encoding an integer returns that integer and leaves the stream positioned exactly after those bytes, whatever precedes or follows them in the stream.",
  "every integer the encoding accepts (all of Z for compact and LEB128, all n >= 0 for VLQ and ULEB128), every prefix and every suffix in the stream",
  "the integers are unbounded; tests only sample magnitudes and miss e.g. sign-bit/7-bit-group boundaries at large sizes",
  ["binobj/varints.py:encode_integer_compact,decode_integer_compact,encode_integer_vlq,decode_integer_vlq,encode_integer_uleb128,decode_integer_uleb128,encode_integer_leb128,decode_integer_leb128"])
p("C02", "Variable-length integer encodings are self-delimiting and prefix-free",
  "Every encoding consists of bytes 0..255, has the continuation bit set on every byte but the last and clear on the last; hence the encodings of two different integers in the same scheme are never prefixes of one another, and a concatenation of encodings decodes to exactly the encoded sequence.",
  "every pair of encodable integers, every finite sequence of encodable integers",
  "quantifies over pairs and sequences of unbounded integers",
  ["binobj/varints.py"])
p("C03", "Unsigned varint encodings reject exactly the negative integers",
  "VLQ and ULEB128 raise ValueError for every negative integer and succeed for every non-negative one; compact and LEB128 succeed for every integer. Through a VariableLengthInteger field the rejection surfaces as UnserializableValueError and nothing is written.",
  "every integer",
  "unbounded domain",
  ["binobj/varints.py:encode_integer_vlq,encode_integer_uleb128", "binobj/fields/numeric.py:VariableLengthInteger._do_dump"])
p("C04", "Varint encodings are the shortest possible, except LEB128 on -2^(7k-1)",
  "VLQ, compact and ULEB128 never use more bytes than any other byte string that decodes to the same integer. LEB128 does so for every integer except the negative powers -2^(7k-1), k >= 1 (-64, -8192, ...), where it emits exactly one byte more than the shortest decodable form.",
  "every encodable integer and every byte string decoding to it",
  "minimality compares against all byte strings",
  ["binobj/varints.py"])
p("C05", "Varint decoders are total and compute the positional value",
  "On any stream, each decoder returns a value iff some remaining byte has its high bit clear; it then consumes up to and including the first such byte and returns the big-/little-endian base-128 value of the consumed groups (with the scheme's sign rule). Otherwise it raises UnexpectedEOFError having consumed the whole stream.",
  "every byte stream and every start position",
  "all byte strings of all lengths, including non-canonical encodings",
  ["binobj/varints.py", "binobj/helpers.py:read_int"])
p("C06", "Fixed-size integers round-trip in every width, signedness and byte order",
  "For an Integer field of n >= 0 bytes, loading what was dumped returns the same integer and consumes exactly n bytes; the big-endian form is the byte-reversal of the little-endian form; unsigned little-endian byte i is (v / 256^i) mod 256 and signed values are stored modulo 2^(8n).",
  "every size, signedness, endianness, every value, every surrounding stream content",
  "widths are user-chosen (e.g. 24-bit, 96-bit) and values unbounded",
  ["binobj/helpers.py:read_int,write_int", "binobj/fields/numeric.py:Integer"])
p("C07", "Fixed-size integer dump accepts exactly the representable range",
  "Dumping to an n-byte Integer field succeeds iff 0 <= v < 2^(8n) (unsigned) or -2^(8n-1) <= v < 2^(8n-1) (signed); otherwise UnserializableValueError is raised and nothing is written.",
  "every size, signedness, value", "range boundaries for every width",
  ["binobj/fields/numeric.py:Integer._do_dump", "binobj/helpers.py:write_int"])
p("C08", "Fixed-size integer load is the inverse of dump on all byte strings",
  "Any n bytes load to an in-range integer and re-dumping it reproduces those n bytes; so load/dump is a bijection between n-byte strings and the representable range.",
  "every n-byte string, every width/signedness/endianness", "256^n inputs",
  ["binobj/fields/numeric.py:Integer", "binobj/helpers.py:read_int,write_int"])
p("C09", "Short input never yields a fixed-size value",
  "If fewer bytes remain than the field's fixed (non-negative) size, loading an Integer, Bytes, String, Float, Timestamp or UUID4 field that is present and not nullable raises UnexpectedEOFError naming the field, the size requested and (except UUID4) the offset where the field starts.",
  "every field of those types, every too-short stream and position", "all truncation points",
  ["binobj/helpers.py:read_int", "binobj/fields/base.py:_read_exact_size", "binobj/fields/stringlike.py:UUID4._do_load"])
p("C10", "VariableLengthInteger max_bytes bounds what is written, not what is read",
  "A VariableLengthInteger with max_bytes=m never writes more than m bytes: a value whose encoding is longer raises ValueSizeError and writes nothing. Loading does not apply the bound (encodings longer than m are accepted).",
  "every value, encoding, bound, and input stream", "unbounded values",
  ["binobj/fields/numeric.py:VariableLengthInteger"])
p("C11", "Bytes fields are stored verbatim and exactly sized",
  "A Bytes field of declared size n writes exactly the given bytes iff their length is n (else ValueSizeError, nothing written), and loading returns exactly the next n bytes. With a size taken from another field the same holds for non-negative sizes; a negative size makes the load swallow the whole rest of the stream, which no dump can produce.",
  "every size specification, value and stream", "all lengths and all values of the size field",
  ["binobj/fields/stringlike.py:Bytes", "binobj/fields/base.py:_read_exact_size,get_expected_size"])
p("C12", "String dump writes exactly the declared number of bytes or fails cleanly",
  "Dumping a String of declared size n either writes exactly n bytes (the encoded text followed only by pad bytes) or raises and writes nothing; it raises ValueSizeError iff the encoding is longer than n, or shorter than n with no pad byte.",
  "every text, size, pad byte and supported encoding", "all strings and sizes",
  ["binobj/fields/stringlike.py:String._encode_and_resize,_do_dump", "binobj/fields/base.py:to_stream"])
p("C13", "String round-trip, with padding retained on load",
  "Loading what String.dump wrote returns the original text when no padding was needed; when padding was added it returns the text followed by the decoded padding (padding is never stripped).",
  "every text, size, pad byte; single-byte and UTF encodings", "all strings",
  ["binobj/fields/stringlike.py:String"])
p("C14", "StringZ round-trips any NUL-free text in any supported encoding",
  "For each modelled codec (ASCII, ISO-8859-1, UTF-8, UTF-16-LE/BE, UTF-32-LE/BE), a StringZ with no size and no default loads back every encodable NUL-free text it dumped, consumes exactly through the encoded terminator (which has the codec's width), and leaves whatever follows untouched.",
  "every codec, every NUL-free encodable string, every following data", "all strings, all code points, multi-byte boundaries",
  ["binobj/fields/stringlike.py:StringZ", "binobj/helpers.py:iter_bytes"])
p("C15", "A StringZ default does not limit what can be loaded (violated)",
  "Users expect StringZ(default=d) without size to load any NUL-terminated text. The code does not do this: the load reads at most len(encode(d + NUL)) bytes, so any longer text fails with DeserializationError.",
  "every default d, every text whose encoding is longer than d's",
  "the only existing test uses a default of exactly the same length as the data",
  ["binobj/fields/stringlike.py:StringZ._do_load", "binobj/fields/base.py:get_expected_size"])
p("C16", "UUID fields round-trip in all four storage formats",
  "For every 128-bit UUID and each storage format, the dump has the documented length (16/16/36/32), loads back to the same UUID, and the binary variant-2 form is variant 1 with the first three groups byte-reversed.",
  "all 2^128 UUIDs, all formats", "2^128 values", ["binobj/fields/stringlike.py:UUID4"])
p("C17", "Fixed-size fields occupy exactly their size when given a value",
  "Whenever Field.to_stream succeeds with a value other than None on a field whose size is an integer n (any field type, including arrays, nested structs, unions and padded strings), exactly n bytes are appended to the stream; likewise when the size names another field whose value is n. For None the bytes of the null representation are written instead, whatever their length.",
  "every field configuration, value, context and field dictionary", "all schemas and values",
  ["binobj/fields/base.py:Field.to_stream,_add_padding"])
p("C18", "A failing field dump writes nothing",
  "If Field.to_stream raises for any reason, no byte has been appended to the caller's stream by that call.",
  "every field configuration, value, context, failure cause", "all failure points inside nested containers",
  ["binobj/fields/base.py:Field.to_stream"])
p("C19", "None is written as the null representation and read back as None",
  "A nullable field with an explicit non-empty byte or value null representation dumps None as exactly that representation and loads it back as None consuming exactly it; a non-nullable field refuses None with UnserializableValueError; with null_value=DEFAULT a fixed-size field uses size zero bytes.",
  "every field with those settings, every surrounding stream", "all sizes and representations",
  ["binobj/fields/base.py:_get_null_repr,from_stream,to_stream"])
p("C20", "A value whose serialization starts with the null representation loads as None",
  "Non-None values round-trip through a nullable field iff their bytes (plus what follows) do not begin with the null representation and they differ from null_value; otherwise the load silently returns None.",
  "every nullable field, value and following data", "collisions between values and null representation",
  ["binobj/fields/base.py:from_stream"])
p("C21", "const fields: checked on load, fixed under assignment, but not enforced on dump (violated)",
  "Loading a const field succeeds only with the const value (else ValidationError); attribute or item assignment raises ImmutableFieldError and changes nothing. The documented 'always has this value when dumped' is violated: a value passed to the constructor is dumped as given.",
  "every const field, input and assignment", "all values",
  ["binobj/fields/base.py:from_stream,__set__,compute_value_for_dump", "binobj/structures.py:Struct.__init__"])
p("C22", "Field.from_bytes(exact=True) accepts a byte string iff the field consumes all of it",
  "Field.from_bytes with exact returns a value iff from_stream succeeds and no byte is left over; left-over bytes raise ExtraneousDataError; with exact=False they are ignored.",
  "every field, every byte string", "all inputs", ["binobj/fields/base.py:from_bytes"])
p("C23", "Struct.from_bytes(exact=True) tolerates exactly one trailing byte (violated)",
  "The documented contract is that any left-over data raises ExtraneousDataError. The code raises iff two or more bytes are left over: one extra byte is silently accepted.",
  "every struct class and byte string", "off-by-one only visible for one specific leftover length over all inputs",
  ["binobj/structures.py:Struct.from_bytes"])
p("C24", "Validators gate every load and dump",
  "If a field load returns a value from the stream, every field validator accepted that value; if a field dump succeeds, every validator accepted the dumped value; if any rejects, the operation raises that validator's error and (dump) writes nothing. Struct.from_stream and Struct.to_stream succeed only if every field-level, method and struct validator accepts.",
  "every schema, validator list and input", "validators are arbitrary functions",
  ["binobj/fields/base.py:from_stream,to_stream", "binobj/structures.py:validate_contents"])
p("C25", "Absent fields consume and produce no bytes",
  "If a field's present callable returns false, loading returns not_present_value without moving the stream and dumping the struct emits no bytes for it, even when a value is set.",
  "every schema, present callable, value, stream", "callables are arbitrary functions of other fields",
  ["binobj/fields/base.py:from_stream,compute_value_for_dump", "binobj/structures.py:Struct.to_stream"])
p("C26", "Which value is dumped: explicit, then default/const, then computed, else error",
  "compute_value_for_dump returns the explicitly set value if any, else the default (or const), else the computed value; with none of these it raises MissingRequiredValueError; a false present or a NOT_PRESENT value always yields NOT_PRESENT. A default given only through factory= is not used by this rule (violation of the documented factory argument): such a field raises MissingRequiredValueError when a struct is dumped.",
  "every field configuration and every mapping of values", "all combinations of settings",
  ["binobj/fields/base.py:compute_value_for_dump,default,__init__"])
p("C27", "Struct round-trip",
  "For a struct whose fields are integers, varints, sized Bytes/String, StringZ, UUIDs, counted arrays of such fields and nested structs of such fields, with sizes and counts taken from constants or earlier fields, loading the dumped bytes (followed by anything) succeeds, consumes exactly those bytes and yields an instance with the same to_dict() contents.",
  "every such schema (any number of fields, any nesting depth) and every instance that dumps", "all schemas and instances",
  ["binobj/structures.py:Struct.to_stream,from_stream", "binobj/fields/containers.py"])
p("C28", "Struct dump is the concatenation of its fields in declaration order",
  "When Struct.to_stream succeeds, the output is the concatenation, in declaration order (inherited fields first), of each present field's own dump; if it raises at field k, exactly the bytes of fields before k have been written, and if validation or dict conversion fails nothing has been written.",
  "every struct class and instance", "all schemas, all failure points",
  ["binobj/structures.py:Struct.to_stream"])
p("C29", "Struct load reads fields in order, each seeing the earlier ones, overridable by init_kwargs",
  "Struct.from_stream loads each component in declaration order from where the previous one stopped, passing exactly the values loaded so far (plus init_kwargs); init_kwargs values override loaded values; an unknown name in init_kwargs raises UnexpectedValueError; discard fields are removed from the result.",
  "every struct class, stream, init_kwargs", "all schemas and inputs",
  ["binobj/structures.py:Struct.from_stream,__init__"])
p("C30", "partial_load returns the longest loadable prefix and positions the stream after it",
  "partial_load without last_field returns exactly the fields before the first one that hits UnexpectedEOFError and leaves the stream at that field's start; with last_field it either loads through that field or raises; it never runs struct validators. A truncated StringZ is not treated as EOF: it raises DeserializationError instead of stopping.",
  "every struct class, every stream (every truncation point)", "every truncation point of every schema",
  ["binobj/structures.py:partial_load", "binobj/fields/stringlike.py:StringZ._do_load"])
p("C31", "get_field never moves the stream",
  "Struct.get_field leaves the stream position unchanged whether it returns or raises.",
  "every struct class, field name, stream", "all failure points",
  ["binobj/structures.py:get_field"])
p("C32", "get_field returns what a full load would give (conditionally)",
  "If every earlier field has a constant size, is always present and is not null, and the requested field's own size/count/presence do not refer to other fields, get_field returns the same value that from_stream stores for that field. Without those conditions it can differ or fail: a field at a fixed offset whose size refers to an earlier field raises MissingRequiredValueError, and an absent optional field shifts later reads.",
  "every struct class satisfying the conditions, every stream", "all schemas and inputs",
  ["binobj/structures.py:get_field,collect_assigned_fields"])
p("C33", "partial_dump writes a prefix of the full dump",
  "For structs whose fields need no computed values and no references to other fields, partial_dump writes the concatenation of the field dumps up to last_field (or to the first field without a value), which is a prefix of what to_stream writes. It cannot dump a field whose size refers to another field (MissingRequiredValueError even though the value is set).",
  "every such struct and instance, every last_field", "all schemas and instances",
  ["binobj/structures.py:partial_dump"])
p("C34", "get_size / len agree with the serialized length (conditionally)",
  "If get_size() returns n because every field has an integer size, every dump in which all fields are present and non-None has exactly n bytes. get_size() also returns a number when an unsized field merely has a default, in which case dumps of other lengths exist; len(struct) counts absent fields.",
  "every struct class and instance", "all schemas and values",
  ["binobj/structures.py:StructMetadata.get_size,Struct.__len__"])
p("C35", "Item/attribute access behaves like a map with immutable const and computed fields",
  "After any sequence of item/attribute assignments and deletions, reading a field returns the last successfully assigned value (or the default/computed value if none); operations on unknown names raise KeyError; a failed operation changes nothing; const and computed fields never acquire a stored value they did not have at construction.",
  "every history of operations on every struct instance", "unbounded operation sequences",
  ["binobj/structures.py:__getitem__,__setitem__,__delitem__,__iter__", "binobj/fields/base.py:__get__,__set__"])
p("C36", "to_dict is complete and fully converted",
  "When to_dict succeeds the result has exactly one entry per non-discard field (all fields with keep_discardable=True) and contains no Struct instance at any depth.",
  "every struct class and instance", "all nesting shapes",
  ["binobj/structures.py:to_dict,recursive_to_dicts,_to_dict_whatever_possible"])
p("C37", "Class creation assigns positions, offsets and inheritance order correctly",
  "For a struct class, component i has index i; inherited fields come first, in the parent's order, followed by the class's own; a field's offset is the sum of the sizes of all earlier fields iff all of them have constant size, else None; redefinition of an inherited field and multiple struct bases are rejected; every component's name equals its attribute name.",
  "every class body and every inheritance chain", "all class definitions and chain lengths",
  ["binobj/structures.py:StructMetadata.from_class,collect_assigned_fields", "binobj/fields/base.py:bind_to_container,maybe_assign_name"])
p("C38", "Meta argument defaults have the documented precedence",
  "When a field is bound, its byte order is the explicitly passed one if any, else the class-specific default, else the generic default, else its constructor value; only integer fields are affected.",
  "every field and every defaults table", "all combinations",
  ["binobj/fields/base.py:bind_to_container"])
p("C39", "Array dump writes exactly the declared number of elements",
  "An Array with a resolvable count n dumps a list iff it has exactly n elements that all dump; otherwise ArraySizeError with expected and given counts, and nothing is written; the output is the concatenation of the element dumps. Generators obey the same rule and are never read past element n+1.",
  "every component, list/generator, count", "all lengths",
  ["binobj/fields/containers.py:Array._do_dump,_dump_unsized"])
p("C40", "Array load returns exactly count elements, or all until end of stream",
  "With count n an Array load returns max(n,0) elements loaded consecutively; with no count it stops exactly at the end of the stream.",
  "every component whose loads consume input, every stream", "all streams and counts",
  ["binobj/fields/containers.py:Array._do_load,should_halt"])
p("C41", "Array load termination",
  "Loading an Array terminates on every finite stream if each successful component load consumes at least one byte or is counted; it does not terminate for a component that is never present under a positive count, nor for a zero-byte component in an uncounted array with data remaining.",
  "every stream and schema", "non-termination cannot be observed by a finite test",
  ["binobj/fields/containers.py:Array._do_load"])
p("C42", "Stream helpers honour their contracts",
  "peek_bytes returns the next bytes without moving the stream; iter_bytes yields exactly the next min(max_bytes, remaining) bytes one at a time; read_int/write_int are inverse and read/write exactly n bytes or raise without partial results.",
  "every stream, position, count", "all streams",
  ["binobj/helpers.py"])
p("C43", "Reads never modify the data and only move forward within it",
  "No load operation changes the stream's contents; a successful load of a field or struct leaves the position at or after where it started and not beyond the end of the data it was given.",
  "every schema and stream", "all schemas and inputs",
  ["binobj/fields/base.py:from_stream", "binobj/structures.py:from_stream"])
p("C44", "Union loading skips the chosen field's checks (violated symmetry)",
  "Dumping through a Union applies the chosen field's validators, null handling and size check; loading through it applies none of them (const, validators and null of the chosen field are bypassed).",
  "every union, choice and input", "all choices and values",
  ["binobj/fields/containers.py:Union._do_load,_do_dump"])
p("C45", "discard fields: not in results, and a set value is not dumped (violated)",
  "After a load no discard field is stored in the instance and to_dict omits it. When dumping, a value explicitly set on a discard field is ignored: its default is dumped instead, or MissingRequiredValueError is raised when there is none.",
  "every struct with discard fields, every value", "all schemas and values",
  ["binobj/structures.py:from_stream,to_dict,to_stream"])
p("C46", "present callables depending on the context (violated)",
  "Users expect present(fields, context, None) to decide with the context passed to to_stream. The code also evaluates it with context None during to_dict, and a false answer there makes the field vanish from the dump regardless of the real context.",
  "every present callable that is false for context None", "callables are arbitrary",
  ["binobj/structures.py:to_stream,to_dict", "binobj/fields/base.py:compute_value_for_dump"])
p("C47", "Struct equality is an equivalence on instances and agrees with the set values",
  "Comparing structs compares exactly their set (not UNDEFINED) values after recursive conversion to dictionaries; it is reflexive, symmetric and transitive on instances whose values are NaN-free, and does not depend on assignment order.",
  "all instances of all classes", "all pairs/triples of instances",
  ["binobj/structures.py:__eq__,__iter__,recursive_to_dicts"])
p("C48", "PEP 526 dataclass declarations: indices and offsets under inheritance (violated)",
  "A @dataclass struct without struct bases gets the same component order, indices and offsets as the equivalent assignment-style class. With an assignment-style parent its own fields are numbered and placed from 0 again, so get_field reads the parent's bytes; decorating a subclass of a dataclass struct always fails with FieldRedefinedError.",
  "every annotated class body", "all class definitions",
  ["binobj/pep526.py:dataclass"])
p("C49", "Sizes from const",
  "A Bytes, String, StringZ or VariableLengthInteger field given const and no size gets as its size exactly the number of bytes its dump of const occupies.",
  "every const value", "all values", ["binobj/fields/base.py:__init__,_size_for_value", "binobj/fields/stringlike.py", "binobj/fields/numeric.py"])
p("C50", "Timestamps with second resolution round-trip; finer resolutions may lose a unit",
  "A tz-aware Timestamp with resolution 's' loads back every whole-second UTC datetime in range that it dumped. With resolution 'us' the float arithmetic truncates: some datetimes come back one microsecond early.",
  "every datetime representable in the field", "float rounding over all instants",
  ["binobj/fields/numeric.py:Timestamp"])
p("C51", "Float fields preserve bit patterns",
  "Float64 dumps and loads every non-NaN double unchanged in both byte orders; loading any 4-byte (2-byte) non-NaN pattern through Float32 (Float16) and dumping it again reproduces the bytes; Float32/Float16 dump of an out-of-range finite double raises OverflowError rather than a binobj error.",
  "all bit patterns", "2^64 values",
  ["binobj/fields/numeric.py:Float"])
out = os.path.join(os.path.dirname(os.path.abspath(__file__)), "..", "properties.jsonl")
with open(out, "w") as f:
    for x in P:
        f.write(json.dumps(x) + "\n")
print(len(P))
