{"id": "C01", "title": "Variable-length integers round-trip", "statement": "For each of the four encodings (VLQ, compact/signed VLQ, ULEB128, LEB128), decoding the bytes produced by encoding an integer returns that integer and leaves the stream positioned exactly after those bytes, whatever precedes or follows them in the stream.", "quantifier": "every integer the encoding accepts (all of Z for compact and LEB128, all n >= 0 for VLQ and ULEB128), every prefix and every suffix in the stream", "why_tests_cant": "the integers are unbounded; tests only sample magnitudes and miss e.g. sign-bit/7-bit-group boundaries at large sizes", "anchors": ["binobj/varints.py:encode_integer_compact,decode_integer_compact,encode_integer_vlq,decode_integer_vlq,encode_integer_uleb128,decode_integer_uleb128,encode_integer_leb128,decode_integer_leb128"]}
{"id": "C02", "title": "Variable-length integer encodings are self-delimiting and prefix-free", "statement": "Every encoding consists of bytes 0..255, has the continuation bit set on every byte but the last and clear on the last; hence the encodings of two different integers in the same scheme are never prefixes of one another, and a concatenation of encodings decodes to exactly the encoded sequence.", "quantifier": "every pair of encodable integers, every finite sequence of encodable integers", "why_tests_cant": "quantifies over pairs and sequences of unbounded integers", "anchors": ["binobj/varints.py"]}
{"id": "C03", "title": "Unsigned varint encodings reject exactly the negative integers", "statement": "VLQ and ULEB128 raise ValueError for every negative integer and succeed for every non-negative one; compact and LEB128 succeed for every integer. Through a VariableLengthInteger field the rejection surfaces as UnserializableValueError and nothing is written.", "quantifier": "every integer", "why_tests_cant": "unbounded domain", "anchors": ["binobj/varints.py:encode_integer_vlq,encode_integer_uleb128", "binobj/fields/numeric.py:VariableLengthInteger._do_dump"]}
{"id": "C04", "title": "Varint encodings are the shortest possible, except LEB128 on -2^(7k-1)", "statement": "VLQ, compact and ULEB128 never use more bytes than any other byte string that decodes to the same integer. LEB128 does so for every integer except the negative powers -2^(7k-1), k >= 1 (-64, -8192, ...), where it emits exactly one byte more than the shortest decodable form.", "quantifier": "every encodable integer and every byte string decoding to it", "why_tests_cant": "minimality compares against all byte strings", "anchors": ["binobj/varints.py"]}
{"id": "C05", "title": "Varint decoders are total and compute the positional value", "statement": "On any stream, each decoder returns a value iff some remaining byte has its high bit clear; it then consumes up to and including the first such byte and returns the big-/little-endian base-128 value of the consumed groups (with the scheme's sign rule). Otherwise it raises UnexpectedEOFError having consumed the whole stream.", "quantifier": "every byte stream and every start position", "why_tests_cant": "all byte strings of all lengths, including non-canonical encodings", "anchors": ["binobj/varints.py", "binobj/helpers.py:read_int"]}
{"id": "C06", "title": "Fixed-size integers round-trip in every width, signedness and byte order", "statement": "For an Integer field of n >= 0 bytes, loading what was dumped returns the same integer and consumes exactly n bytes; the big-endian form is the byte-reversal of the little-endian form; unsigned little-endian byte i is (v / 256^i) mod 256 and signed values are stored modulo 2^(8n).", "quantifier": "every size, signedness, endianness, every value, every surrounding stream content", "why_tests_cant": "widths are user-chosen (e.g. 24-bit, 96-bit) and values unbounded", "anchors": ["binobj/helpers.py:read_int,write_int", "binobj/fields/numeric.py:Integer"]}
{"id": "C07", "title": "Fixed-size integer dump accepts exactly the representable range", "statement": "Dumping to an n-byte Integer field succeeds iff 0 <= v < 2^(8n) (unsigned) or -2^(8n-1) <= v < 2^(8n-1) (signed); otherwise UnserializableValueError is raised and nothing is written.", "quantifier": "every size, signedness, value", "why_tests_cant": "range boundaries for every width", "anchors": ["binobj/fields/numeric.py:Integer._do_dump", "binobj/helpers.py:write_int"]}
{"id": "C08", "title": "Fixed-size integer load is the inverse of dump on all byte strings", "statement": "Any n bytes load to an in-range integer and re-dumping it reproduces those n bytes; so load/dump is a bijection between n-byte strings and the representable range.", "quantifier": "every n-byte string, every width/signedness/endianness", "why_tests_cant": "256^n inputs", "anchors": ["binobj/fields/numeric.py:Integer", "binobj/helpers.py:read_int,write_int"]}
{"id": "C09", "title": "Short input never yields a fixed-size value", "statement": "If fewer bytes remain than the field's fixed (non-negative) size, loading an Integer, Bytes, String, Float, Timestamp or UUID4 field that is present and not nullable raises UnexpectedEOFError naming the field, the size requested and (except UUID4) the offset where the field starts.", "quantifier": "every field of those types, every too-short stream and position", "why_tests_cant": "all truncation points", "anchors": ["binobj/helpers.py:read_int", "binobj/fields/base.py:_read_exact_size", "binobj/fields/stringlike.py:UUID4._do_load"]}
{"id": "C10", "title": "VariableLengthInteger max_bytes bounds what is written, not what is read", "statement": "A VariableLengthInteger with max_bytes=m never writes more than m bytes: a value whose encoding is longer raises ValueSizeError and writes nothing. Loading does not apply the bound (encodings longer than m are accepted).", "quantifier": "every value, encoding, bound, and input stream", "why_tests_cant": "unbounded values", "anchors": ["binobj/fields/numeric.py:VariableLengthInteger"]}
{"id": "C11", "title": "Bytes fields are stored verbatim and exactly sized", "statement": "A Bytes field of declared size n writes exactly the given bytes iff their length is n (else ValueSizeError, nothing written), and loading returns exactly the next n bytes. With a size taken from another field the same holds for non-negative sizes; a negative size makes the load swallow the whole rest of the stream, which no dump can produce.", "quantifier": "every size specification, value and stream", "why_tests_cant": "all lengths and all values of the size field", "anchors": ["binobj/fields/stringlike.py:Bytes", "binobj/fields/base.py:_read_exact_size,get_expected_size"]}
{"id": "C12", "title": "String dump writes exactly the declared number of bytes or fails cleanly", "statement": "Dumping a String of declared size n either writes exactly n bytes (the encoded text followed only by pad bytes) or raises and writes nothing; it raises ValueSizeError iff the encoding is longer than n, or shorter than n with no pad byte.", "quantifier": "every text, size, pad byte and supported encoding", "why_tests_cant": "all strings and sizes", "anchors": ["binobj/fields/stringlike.py:String._encode_and_resize,_do_dump", "binobj/fields/base.py:to_stream"]}
{"id": "C13", "title": "String round-trip, with padding retained on load", "statement": "Loading what String.dump wrote returns the original text when no padding was needed; when padding was added it returns the text followed by the decoded padding (padding is never stripped).", "quantifier": "every text, size, pad byte; single-byte and UTF encodings", "why_tests_cant": "all strings", "anchors": ["binobj/fields/stringlike.py:String"]}
{"id": "C14", "title": "StringZ round-trips any NUL-free text in any supported encoding", "statement": "For each modelled codec (ASCII, ISO-8859-1, UTF-8, UTF-16-LE/BE, UTF-32-LE/BE), a StringZ with no size and no default loads back every encodable NUL-free text it dumped, consumes exactly through the encoded terminator (which has the codec's width), and leaves whatever follows untouched.", "quantifier": "every codec, every NUL-free encodable string, every following data", "why_tests_cant": "all strings, all code points, multi-byte boundaries", "anchors": ["binobj/fields/stringlike.py:StringZ", "binobj/helpers.py:iter_bytes"]}
{"id": "C15", "title": "A StringZ default does not limit what can be loaded (violated)", "statement": "Users expect StringZ(default=d) without size to load any NUL-terminated text. The code does not do this: the load reads at most len(encode(d + NUL)) bytes, so any longer text fails with DeserializationError.", "quantifier": "every default d, every text whose encoding is longer than d's", "why_tests_cant": "the only existing test uses a default of exactly the same length as the data", "anchors": ["binobj/fields/stringlike.py:StringZ._do_load", "binobj/fields/base.py:get_expected_size"]}
{"id": "C16", "title": "UUID fields round-trip in all four storage formats", "statement": "For every 128-bit UUID and each storage format, the dump has the documented length (16/16/36/32), loads back to the same UUID, and the binary variant-2 form is variant 1 with the first three groups byte-reversed.", "quantifier": "all 2^128 UUIDs, all formats", "why_tests_cant": "2^128 values", "anchors": ["binobj/fields/stringlike.py:UUID4"]}
{"id": "C17", "title": "Fixed-size fields occupy exactly their size when given a value", "statement": "Whenever Field.to_stream succeeds with a value other than None on a field whose size is an integer n (any field type, including arrays, nested structs, unions and padded strings), exactly n bytes are appended to the stream; likewise when the size names another field whose value is n. For None the bytes of the null representation are written instead, whatever their length.", "quantifier": "every field configuration, value, context and field dictionary", "why_tests_cant": "all schemas and values", "anchors": ["binobj/fields/base.py:Field.to_stream,_add_padding"]}
{"id": "C18", "title": "A failing field dump writes nothing", "statement": "If Field.to_stream raises for any reason, no byte has been appended to the caller's stream by that call.", "quantifier": "every field configuration, value, context, failure cause", "why_tests_cant": "all failure points inside nested containers", "anchors": ["binobj/fields/base.py:Field.to_stream"]}
{"id": "C19", "title": "None is written as the null representation and read back as None", "statement": "A nullable field with an explicit non-empty byte or value null representation dumps None as exactly that representation and loads it back as None consuming exactly it; a non-nullable field refuses None with UnserializableValueError; with null_value=DEFAULT a fixed-size field uses size zero bytes. If None cannot be written for another reason than that the null value does not fit, every load raises that exception.", "quantifier": "every field with those settings, every surrounding stream", "why_tests_cant": "all sizes and representations", "anchors": ["binobj/fields/base.py:_get_null_repr,from_stream,to_stream"]}
{"id": "C20", "title": "A value whose serialization starts with the null representation loads as None", "statement": "Non-None values round-trip through a nullable field iff their bytes (plus what follows) do not begin with the null representation and they differ from null_value; otherwise the load silently returns None.", "quantifier": "every nullable field, value and following data", "why_tests_cant": "collisions between values and null representation", "anchors": ["binobj/fields/base.py:from_stream"]}
{"id": "C21", "title": "const fields: checked on load, fixed under assignment, but not enforced on dump (violated)", "statement": "Loading a const field succeeds only with the const value (else ValidationError); attribute or item assignment raises ImmutableFieldError and changes nothing. The documented 'always has this value when dumped' is violated: a value passed to the constructor is dumped as given.", "quantifier": "every const field, input and assignment", "why_tests_cant": "all values", "anchors": ["binobj/fields/base.py:from_stream,__set__,compute_value_for_dump", "binobj/structures.py:Struct.__init__"]}
{"id": "C22", "title": "Field.from_bytes(exact=True) accepts a byte string iff the field consumes all of it", "statement": "Field.from_bytes with exact returns a value iff from_stream succeeds and no byte is left over; left-over bytes raise ExtraneousDataError; with exact=False they are ignored. to_bytes returns exactly what to_stream writes, or raises what it raises.", "quantifier": "every field, every byte string", "why_tests_cant": "all inputs", "anchors": ["binobj/fields/base.py:from_bytes"]}
{"id": "C23", "title": "Struct.from_bytes(exact=True) tolerates exactly one trailing byte (violated)", "statement": "The documented contract is that any left-over data raises ExtraneousDataError. The code raises iff two or more bytes are left over: one extra byte is silently accepted.", "quantifier": "every struct class and byte string", "why_tests_cant": "off-by-one only visible for one specific leftover length over all inputs", "anchors": ["binobj/structures.py:Struct.from_bytes"]}
{"id": "C24", "title": "Validators gate every load and dump", "statement": "If a field load returns a value from the stream, every field validator accepted that value; if a field dump succeeds, every validator accepted the dumped value; if any rejects, the operation raises that validator's error and (dump) writes nothing. Struct.from_stream and Struct.to_stream succeed only if every field-level, method and struct validator accepts.", "quantifier": "every schema, validator list and input", "why_tests_cant": "validators are arbitrary functions", "anchors": ["binobj/fields/base.py:from_stream,to_stream", "binobj/structures.py:validate_contents"]}
{"id": "C25", "title": "Absent fields consume and produce no bytes", "statement": "If a field's present callable returns false, loading returns not_present_value without moving the stream and dumping the struct emits no bytes for it, even when a value is set.", "quantifier": "every schema, present callable, value, stream", "why_tests_cant": "callables are arbitrary functions of other fields", "anchors": ["binobj/fields/base.py:from_stream,compute_value_for_dump", "binobj/structures.py:Struct.to_stream"]}
{"id": "C26", "title": "Which value is dumped: explicit, then default/const, then computed, else error", "statement": "compute_value_for_dump returns the explicitly set value if any, else the default (or const), else the computed value; with none of these it raises MissingRequiredValueError; a false present or a NOT_PRESENT value always yields NOT_PRESENT. A default given only through factory= is not used by this rule (violation of the documented factory argument): such a field raises MissingRequiredValueError when a struct is dumped. Field.to_stream called without a value dumps the default or the factory's result, and raises MissingRequiredValueError without one.", "quantifier": "every field configuration and every mapping of values", "why_tests_cant": "all combinations of settings", "anchors": ["binobj/fields/base.py:compute_value_for_dump,default,__init__"]}
{"id": "C27", "title": "Struct round-trip", "statement": "For a struct built from integers, varints, Bytes and Strings exactly filling their declared size, StringZ without NUL characters, UUIDs, non-NaN doubles, single- and half-precision numbers, whole-second timestamps of any resolution but 'ns', nanosecond timestamps until 2038, counted arrays, nested structs and unions of fields or structs, where sizes, counts, presence and the union's choice come from constants or earlier fields, where any field may be optional or nullable, and where discarded fields are constants, loading the dumped bytes (preceded and followed by anything) succeeds, consumes exactly those bytes and yields an instance with the same to_dict() contents. The last field may also be an array reading to the end of the data, if nothing follows. A nullable field's value must be distinguishable from its null representation.", "quantifier": "every such schema (any number of fields, any nesting depth) without struct-level validators, and every instance that dumps", "why_tests_cant": "all schemas and instances", "anchors": ["binobj/structures.py:Struct.to_stream,from_stream", "binobj/fields/containers.py"]}
{"id": "C28", "title": "Struct dump is the concatenation of its fields in declaration order", "statement": "When Struct.to_stream succeeds, the output is the concatenation, in declaration order (inherited fields first), of each present field's own dump; if it raises at field k, exactly the bytes of fields before k have been written, and if validation or dict conversion fails nothing has been written.", "quantifier": "every struct class and instance", "why_tests_cant": "all schemas, all failure points", "anchors": ["binobj/structures.py:Struct.to_stream"]}
{"id": "C29", "title": "Struct load reads fields in order, each seeing the earlier ones, overridable by init_kwargs", "statement": "Struct.from_stream loads each component in declaration order from where the previous one stopped, passing exactly the values loaded so far (plus init_kwargs); init_kwargs values override loaded values; an unknown name in init_kwargs raises UnexpectedValueError; discard fields are removed from the result.", "quantifier": "every struct class, stream, init_kwargs", "why_tests_cant": "all schemas and inputs", "anchors": ["binobj/structures.py:Struct.from_stream,__init__"]}
{"id": "C30", "title": "partial_load returns the longest loadable prefix and positions the stream after it", "statement": "partial_load without last_field returns exactly the fields before the first one that hits UnexpectedEOFError and leaves the stream at that field's start; with last_field it either loads through that field or raises; it never runs struct validators. A truncated StringZ is not treated as EOF: it raises DeserializationError instead of stopping.", "quantifier": "every struct class, every stream (every truncation point)", "why_tests_cant": "every truncation point of every schema", "anchors": ["binobj/structures.py:partial_load", "binobj/fields/stringlike.py:StringZ._do_load"]}
{"id": "C31", "title": "get_field never moves the stream", "statement": "Struct.get_field leaves the stream position unchanged whether it returns or raises.", "quantifier": "every struct class, field name, stream", "why_tests_cant": "all failure points", "anchors": ["binobj/structures.py:get_field"]}
{"id": "C32", "title": "get_field returns what a full load would give (conditionally)", "statement": "If every earlier field has a constant size, is always present and is not null, and the requested field's own size/count/presence do not refer to other fields, get_field returns the same value that from_stream stores for that field. Without those conditions it can differ or fail: a field at a fixed offset whose size refers to an earlier field raises MissingRequiredValueError, and an absent optional field shifts later reads.", "quantifier": "every struct class satisfying the conditions, every stream", "why_tests_cant": "all schemas and inputs", "anchors": ["binobj/structures.py:get_field,collect_assigned_fields"]}
{"id": "C33", "title": "partial_dump writes a prefix of the full dump", "statement": "For structs whose fields need no computed values and no references to other fields, partial_dump writes the concatenation of the field dumps up to last_field (or to the first field without a value), which is a prefix of what to_stream writes. It cannot dump a field whose size refers to another field (MissingRequiredValueError even though the value is set).", "quantifier": "every such struct and instance, every last_field", "why_tests_cant": "all schemas and instances", "anchors": ["binobj/structures.py:partial_dump"]}
{"id": "C34", "title": "get_size / len agree with the serialized length (conditionally)", "statement": "If get_size() returns n because every field has an integer size, every dump in which all fields are present and non-None has exactly n bytes. get_size() also returns a number when an unsized field merely has a default, in which case dumps of other lengths exist; len(struct) counts absent fields.", "quantifier": "every struct class and instance", "why_tests_cant": "all schemas and values", "anchors": ["binobj/structures.py:StructMetadata.get_size,Struct.__len__"]}
{"id": "C35", "title": "Item/attribute access behaves like a map with immutable const and computed fields", "statement": "After any sequence of item/attribute assignments and deletions, reading a field returns the last successfully assigned value (or the default/computed value if none); operations on unknown names raise KeyError; a failed operation changes nothing; const and computed fields never acquire a stored value they did not have at construction.", "quantifier": "every history of operations on every struct instance", "why_tests_cant": "unbounded operation sequences", "anchors": ["binobj/structures.py:__getitem__,__setitem__,__delitem__,__iter__", "binobj/fields/base.py:__get__,__set__"]}
{"id": "C36", "title": "to_dict is complete and fully converted", "statement": "When to_dict succeeds the result has exactly one entry per non-discard field (all fields with keep_discardable=True) and contains no Struct instance at any depth.", "quantifier": "every struct class and instance", "why_tests_cant": "all nesting shapes", "anchors": ["binobj/structures.py:to_dict,recursive_to_dicts,_to_dict_whatever_possible"]}
{"id": "C37", "title": "Class creation assigns positions, offsets and inheritance order correctly", "statement": "For a struct class, component i has index i; inherited fields come first, in the parent's order, followed by the class's own; a field's offset is the sum of the sizes of all earlier fields iff all of them have constant size, else None; redefinition of an inherited field and multiple struct bases are rejected; every component's name equals its attribute name.", "quantifier": "every class body and every inheritance chain", "why_tests_cant": "all class definitions and chain lengths", "anchors": ["binobj/structures.py:StructMetadata.from_class,collect_assigned_fields", "binobj/fields/base.py:bind_to_container,maybe_assign_name"]}
{"id": "C38", "title": "Meta argument defaults have the documented precedence", "statement": "When a field is bound, its byte order is the explicitly passed one if any, else the class-specific default, else the generic default, else its constructor value; only integer fields are affected.", "quantifier": "every field and every defaults table", "why_tests_cant": "all combinations", "anchors": ["binobj/fields/base.py:bind_to_container"]}
{"id": "C39", "title": "Array dump writes exactly the declared number of elements", "statement": "An Array with a resolvable count n dumps a list iff it has exactly n elements that all dump; otherwise ArraySizeError with expected and given counts, and nothing is written; the output is the concatenation of the element dumps. Generators obey the same rule and are never read past element n+1.", "quantifier": "every component, list/generator, count", "why_tests_cant": "all lengths", "anchors": ["binobj/fields/containers.py:Array._do_dump,_dump_unsized"]}
{"id": "C40", "title": "Array load returns exactly count elements, or all until end of stream", "statement": "With count n an Array load returns max(n,0) elements loaded consecutively; with no count it stops exactly at the end of the stream. A count naming a field without a value, a None count, and an unnamed count field raise FieldReferenceError, UndefinedSizeError and ConfigurationError, reading and writing nothing (a None count only fails on load); a count that is not a number raises TypeError.", "quantifier": "every component whose loads consume input, every stream", "why_tests_cant": "all streams and counts", "anchors": ["binobj/fields/containers.py:Array._do_load,should_halt"]}
{"id": "C41", "title": "Array load termination", "statement": "Loading an Array terminates on every finite stream if each successful component load consumes at least one byte or is counted; it does not terminate for a component that is never present under a positive count, nor for a zero-byte component in an uncounted array with data remaining.", "quantifier": "every stream and schema", "why_tests_cant": "non-termination cannot be observed by a finite test", "anchors": ["binobj/fields/containers.py:Array._do_load"]}
{"id": "C42", "title": "Stream helpers honour their contracts", "statement": "peek_bytes returns the next bytes without moving the stream; iter_bytes yields exactly the next min(max_bytes, remaining) bytes one at a time; read_int/write_int are inverse and read/write exactly n bytes or raise without partial results.", "quantifier": "every stream, position, count", "why_tests_cant": "all streams", "anchors": ["binobj/helpers.py"]}
{"id": "C43", "title": "Reads never modify the data and only move forward within it", "statement": "No load operation changes the stream's contents; a successful load of a field or struct leaves the position at or after where it started and not beyond the end of the data it was given.", "quantifier": "every schema and stream", "why_tests_cant": "all schemas and inputs", "anchors": ["binobj/fields/base.py:from_stream", "binobj/structures.py:from_stream"]}
{"id": "C44", "title": "Union loading skips the chosen field's checks (violated symmetry)", "statement": "Dumping through a Union applies the chosen field's validators, null handling and size check; loading through it applies none of them (const, validators and null of the chosen field are bypassed).", "quantifier": "every union, choice and input", "why_tests_cant": "all choices and values", "anchors": ["binobj/fields/containers.py:Union._do_load,_do_dump"]}
{"id": "C45", "title": "discard fields: not in results, and a set value is not dumped (violated)", "statement": "After a load no discard field is stored in the instance and to_dict omits it. When dumping, a value explicitly set on a discard field is ignored: its default is dumped instead, or MissingRequiredValueError is raised when there is none.", "quantifier": "every struct with discard fields, every value", "why_tests_cant": "all schemas and values", "anchors": ["binobj/structures.py:from_stream,to_dict,to_stream"]}
{"id": "C46", "title": "present callables depending on the context (violated)", "statement": "Users expect present(fields, context, None) to decide with the context passed to to_stream. The code also evaluates it with context None during to_dict, and a false answer there makes the field vanish from the dump regardless of the real context.", "quantifier": "every present callable that is false for context None", "why_tests_cant": "callables are arbitrary", "anchors": ["binobj/structures.py:to_stream,to_dict", "binobj/fields/base.py:compute_value_for_dump"]}
{"id": "C47", "title": "Struct equality is an equivalence on instances and agrees with the set values", "statement": "Comparing structs compares exactly their set (not UNDEFINED) values after recursive conversion to dictionaries; it is reflexive, symmetric and transitive on instances whose values are NaN-free, and does not depend on assignment order.", "quantifier": "all instances of all classes", "why_tests_cant": "all pairs/triples of instances", "anchors": ["binobj/structures.py:__eq__,__iter__,recursive_to_dicts"]}
{"id": "C48", "title": "PEP 526 dataclass declarations: indices and offsets under inheritance (violated)", "statement": "A @dataclass struct without struct bases gets the same component order, indices and offsets as the equivalent assignment-style class. With an assignment-style parent its own fields are numbered and placed from 0 again, so get_field reads the parent's bytes; decorating a subclass of a dataclass struct always fails with FieldRedefinedError. A name with two annotations that stand for fields raises ConfigurationError, one annotated with a Union of several types InvalidTypeAnnotationError; a name whose annotations stand for no field is ignored.", "quantifier": "every annotated class body", "why_tests_cant": "all class definitions", "anchors": ["binobj/pep526.py:dataclass"]}
{"id": "C49", "title": "Sizes from const", "statement": "A Bytes, String, StringZ or VariableLengthInteger field given const and no size gets as its size exactly the number of bytes its dump of const occupies.", "quantifier": "every const value", "why_tests_cant": "all values", "anchors": ["binobj/fields/base.py:__init__,_size_for_value", "binobj/fields/stringlike.py", "binobj/fields/numeric.py"]}
{"id": "C50", "title": "Timestamps with second resolution round-trip; finer resolutions may lose a unit", "statement": "A tz-aware Timestamp with resolution 's' loads back every whole-second UTC datetime in range that it dumped. With resolution 'us' the float arithmetic truncates: some datetimes come back one microsecond early. Whole seconds survive resolutions 'ms' and 'us' exactly, over the whole range. A number too large for a float, or for a 64-bit time, raises OverflowError, a smaller one from 2^56 on OSError, one below 2^55 but outside the years 1 to 9999 ValueError. Naive datetimes (the system being on UTC) behave the same from 0001-01-02 on; one on the first day of year 1 can be neither dumped nor loaded, and raises ValueError.", "quantifier": "every datetime representable in the field", "why_tests_cant": "float rounding over all instants", "anchors": ["binobj/fields/numeric.py:Timestamp"]}
{"id": "C51", "title": "Float fields preserve bit patterns", "statement": "Float64 dumps and loads every non-NaN double unchanged in both byte orders; loading any 4-byte (2-byte) non-NaN pattern through Float32 (Float16) and dumping it again reproduces the bytes; Float32/Float16 dump of an out-of-range finite double raises OverflowError rather than a binobj error. A double representable in the narrow format round-trips exactly.", "quantifier": "all bit patterns", "why_tests_cant": "2^64 values", "anchors": ["binobj/fields/numeric.py:Float"]}
{"id": "C52", "title": "Narrow float fields store a nearest number", "statement": "Dumping a finite double through Float16/Float32/Float64, when it succeeds, stores a finite number of that format with the same sign whose distance to the double is minimal among all finite numbers of the format.", "quantifier": "every finite double, both byte orders", "why_tests_cant": "2^64 values against 2^32 candidates each", "anchors": ["binobj/fields/numeric.py:Float._do_dump"]}
{"id": "C53", "title": "Validator tables follow the class body and its base", "statement": "Creating a class gives every field of the body exactly the @validates methods of the body that name it (in body order), every inherited field its parent's list followed by the body's methods for it, and appends the body's struct validators to the parent's. A method naming something that is not a field raises KeyError. In classes declared by assignment every field has an entry.", "quantifier": "every class body and base", "why_tests_cant": "all class definitions", "anchors": ["binobj/structures.py:StructMetadata.from_class,bind_validators_to_struct"]}
{"id": "C54", "title": "Dataclass structs and validators (violated)", "statement": "Fields declared by annotations are validated like assigned ones. The code violates it: they get no entry in the validator table, so a @validates method naming one raises KeyError when the class is created, and validate_contents() (hence to_stream before writing) skips their validate= callables; an invalid later field is detected only after earlier fields have been written.", "quantifier": "every annotated class", "why_tests_cant": "all class definitions", "anchors": ["binobj/pep526.py:dataclass", "binobj/structures.py:validate_contents"]}
{"id": "C55", "title": "Sizes of constructed fields", "statement": "A constructed float, UUID4, Timestamp, IntN field has its class's size; Nested has its struct's get_size(); an Array with an integer count and a component of integer size has their product, otherwise the size it was given; a component named differently from the array is rejected.", "quantifier": "every constructor call", "why_tests_cant": "all argument combinations, nested arrays and structs", "anchors": ["binobj/fields/containers.py:Array.__init__,Nested.__init__", "binobj/fields/numeric.py", "binobj/fields/stringlike.py:UUID4.__init__"]}
{"id": "C56", "title": "A default value limits what an unsized field loads (violated round trip)", "statement": "An unsized Bytes, String or StringZ field with a default value loads exactly as if its size were the size of the default, whatever was dumped; so a struct can dump and then silently load back different values.", "quantifier": "every default, stream and set of loaded fields", "why_tests_cant": "all values", "anchors": ["binobj/fields/base.py:get_expected_size"]}
{"id": "C57", "title": "Dumps determine the data", "statement": "Two instances of a class that dump to the same bytes have the same to_dict() contents, and no dump is a proper prefix of another; so dumps written one after the other can be split again in only one way.", "quantifier": "every class whose fields are in the round-trip class of C27, every pair of instances", "why_tests_cant": "pairs of arbitrary instances of arbitrary classes", "anchors": ["binobj/structures.py:to_stream,from_stream", "binobj/fields/base.py:from_stream,to_stream"]}
{"id": "C58", "title": "How malformed data is reported (violated for text-like fields)", "statement": "Whatever the bytes, from_stream/from_bytes of a class whose sizes and counts are constants or earlier integer fields raises nothing but DeserializationError (including UnexpectedEOFError and ExtraneousDataError), ValidationError, and what user callables raise. The code violates it for malformed text (UnicodeDecodeError; UnicodeError for a null-terminated utf-16 or utf-32 text without byte order mark), textual UUIDs (ValueError, UnicodeDecodeError) and timestamps (ValueError, OverflowError, OSError), which escape unchanged; nothing else does.", "quantifier": "every such class table, every byte string, stream position and context", "why_tests_cant": "all schemas times all byte strings", "anchors": ["binobj/fields/base.py:from_stream", "binobj/structures.py:from_stream,from_bytes", "binobj/fields/stringlike.py", "binobj/fields/numeric.py", "binobj/fields/containers.py", "binobj/varints.py"]}
{"id": "C59", "title": "Loading always ends", "statement": "Loading a class whose structs are not nested in themselves, whose counted-array components are always stored and whose uncounted-array components consume data, terminates on every stream, never moves backwards and ends with an instance or a reported error.", "quantifier": "every such class table, every byte string", "why_tests_cant": "termination for all inputs", "anchors": ["binobj/structures.py:from_stream", "binobj/fields/containers.py:Array._do_load", "binobj/varints.py", "binobj/fields/stringlike.py:StringZ"]}
{"id": "C60", "title": "Constructor arguments", "statement": "The attributes of a new field are the constructor's arguments: const becomes the default unless default= is given, a callable default becomes the factory, default= together with factory= is rejected; unsigned integer classes are unsigned whatever else is passed and do not accept signed=; computes() sets only the computing function and is refused for const fields and the second time. Arguments left out make the field required, not nullable, unvalidated and always present, with NOT_PRESENT as the value of an absent field.", "quantifier": "every constructor call of every field class", "why_tests_cant": "all combinations of arguments and nested components", "anchors": ["binobj/fields/base.py:Field.__init__,computes", "binobj/fields/numeric.py", "binobj/fields/stringlike.py", "binobj/fields/containers.py"]}
{"id": "C61", "title": "Load errors are truthful", "statement": "When from_stream raises UnexpectedEOFError, the data really ends too early: fewer than `size` bytes exist from `offset` on, `offset` is not before the starting position, and the stream is at its end. The `field` of a DeserializationError is the first component of the struct that cannot be loaded, all components before it having been loaded.", "quantifier": "every class table as in C58 whose callables do not raise these errors themselves, every byte string and position", "why_tests_cant": "all schemas times all byte strings", "anchors": ["binobj/helpers.py:read_int", "binobj/fields/base.py:from_stream,_read_exact_size", "binobj/fields/stringlike.py:UUID4._do_load", "binobj/structures.py:from_stream"]}
{"id": "C62", "title": "Loads depend only on the bytes consumed", "statement": "For classes without arrays up to the end of the data, without stream-inspecting callables and with sizes that cannot be negative, a successful load depends on nothing but the bytes it consumes: data before the position or behind the struct makes no difference, the consumed bytes alone load as the same values, data cut off before the end never loads, and structs stored back to back are read back one by one. Violated for uncounted arrays and for sizes taken from signed fields (a negative size reads everything).", "quantifier": "every such class table, every byte string, position and surrounding data", "why_tests_cant": "all schemas, all data, all surroundings", "anchors": ["binobj/structures.py:from_stream", "binobj/fields/base.py:from_stream,_read_exact_size", "binobj/fields/containers.py", "binobj/fields/stringlike.py", "binobj/varints.py", "binobj/helpers.py:read_int,iter_bytes,peek_bytes"]}
{"id": "C63", "title": "Dumping what was loaded reproduces the data", "statement": "For canonical classes (every leaf field with one byte representation per value: fixed-size integers, floats, second timestamps, binary UUIDs, sized bytes and strings, null-terminated strings; null values with one representation; optional fields, unions, sizes and counts that refer to earlier fields; arrays and nested structs; discarded fields constant; no validator methods), whatever loads without NaN is dumped as exactly the bytes that were consumed, also after conversion to a dictionary and back; so different data never load as the same instance. Violated by design for variable-length integers and text UUIDs; violated unexpectedly for nested structs with an absent optional field, which load but raise ValueSizeError on dump.", "quantifier": "every canonical class table, every byte string and position, every context", "why_tests_cant": "all schemas times all byte strings", "anchors": ["binobj/structures.py:from_stream,to_stream,to_dict", "binobj/fields/base.py:from_stream,to_stream,_size_for_value", "binobj/fields/containers.py", "binobj/fields/numeric.py", "binobj/fields/stringlike.py"]}
{"id": "C64", "title": "Instances rebuilt from to_dict()", "statement": "An instance built from the items of x.to_dict() is accepted by the constructor, has the same to_dict() and, if valid, dumps to the same bytes, provided the fields present in the dictionary are still considered present and the discarded fields have a value of their own. Violated without the proviso: the value of a discarded field is lost, and with it whatever depends on it.", "quantifier": "every class table, instance and context", "why_tests_cant": "all schemas times all instances", "anchors": ["binobj/structures.py:__init__,to_dict,to_stream,recursive_to_dicts"]}
{"id": "C65", "title": "Mapping proxies of structs", "statement": "StructMappingProxy and MutableStructMappingProxy behave as dictionaries for names that are set and for unknown names (which cannot be added): get, in, pop, setdefault, items, popitem, clear (terminates, leaves only UNDEFINED values) and update (in order, stopping at the first refused value and keeping the earlier ones). For fields that are not set, get, in, pop and setdefault give the computed or default value of the field instead of the caller's default, or raise MissingRequiredValueError, and never store anything. Violated mapping contracts: len is a size in bytes, and a proxy never equals a dict although its struct does. A KeyError from a callable behind the proxy counts as an absent field: get gives its default and setdefault assigns.", "quantifier": "every class table, instance, name, value and sequence of items", "why_tests_cant": "all schemas times all states", "anchors": ["binobj/structures.py:StructMappingProxy,MutableStructMappingProxy,__getitem__,__setitem__,__delitem__,__iter__,__len__"]}
{"id": "C66", "title": "Declared signedness and byte order of the variable-length formats", "statement": "Each format's declared signedness is true of its encoder: a signed format encodes every integer and an unsigned one refuses exactly by ValueError every negative integer. The declared byte order is that of the seven-bit groups: in a little-endian format the first byte carries the lowest seven bits, in a big-endian format the last byte of a longer encoding does.", "quantifier": "every format and integer", "why_tests_cant": "all values times all configurations", "anchors": ["binobj/varints.py:_VARINT_METADATA", "binobj/fields/numeric.py:VariableLengthInteger.__init__"]}
{"id": "C67", "title": "Ties and integers in Float fields", "statement": "Of two equally near numbers the one with an even fraction is stored. An integer given to a Float64 is stored as the nearest double, ties to even, exactly if below 2^53, and refused by SerializationError exactly when it is too large; in narrower fields it is first rounded to a double, so that the stored number need not be nearest (violated).", "quantifier": "every float, integer, format and byte order", "why_tests_cant": "all values times all configurations", "anchors": ["binobj/fields/numeric.py:Float._do_dump"]}
{"id": "C68", "title": "Text of UUIDs", "statement": "A UUID field stored as text accepts exactly: an optional urn:/uuid: prefix, braces around it, and 32 characters not counting dashes that int(text, 16) takes as a non-negative number (with sign, 0x prefix, underscores and blanks), in either case; anything else is a ValueError. The canonical-text field also dumps any 36-character ASCII text verbatim. Violated: only the canonical layout is read; what was dumped can be loaded. It also dumps an integer as its decimal text if that has 36 characters.", "quantifier": "every text and prefix", "why_tests_cant": "all values times all configurations", "anchors": ["binobj/fields/stringlike.py:UUID4"]}
{"id": "C69", "title": "Values of the wrong Python type", "statement": "Dumping a value of the wrong type through a scalar field writes nothing and raises AttributeError, TypeError, ValueSizeError or SerializationError depending on the field class; asking for the size of such a value raises too. Exceptions: variable-length integers take 0.0, and ULEB128 takes NaN, writing nothing (violated). Comparing an instance holding such a value may raise AttributeError (violated).", "quantifier": "every field class, configuration and value", "why_tests_cant": "all values times all configurations", "anchors": ["binobj/fields/numeric.py:Integer,VariableLengthInteger,Float,Timestamp", "binobj/fields/stringlike.py:Bytes,String,StringZ,UUID4", "binobj/structures.py:Struct.__eq__"]}
{"id": "C70", "title": "Errors skipped while determining values", "statement": "to_dict and len pass over exactly the library's own errors when the value of a field cannot be determined; any other exception from a computed field or factory comes out unchanged.", "quantifier": "every class table, instance and callable", "why_tests_cant": "all values times all configurations", "anchors": ["binobj/structures.py:Struct._to_dict_whatever_possible,to_dict,__len__"]}
{"id": "C71", "title": "Fields made from annotations", "statement": "@dataclass turns an annotation with a field class into a field of that class and of its documented size, signedness and format with all other arguments at their defaults; the class attribute becomes its default or factory, Optional makes it nullable with the default null, and Meta's byte order applies to integers. Classes that need more arguments raise TypeError. A struct class makes a Nested field of it, ignoring the class attribute and Optional.", "quantifier": "every class, hint list and class body", "why_tests_cant": "all values times all configurations", "anchors": ["binobj/pep526.py:make_field_instance,dataclass"]}
{"id": "C72", "title": "Nanosecond timestamps are exact to the microsecond until 2038", "statement": "A Timestamp of resolution 'ns' and at least eight bytes dumps every datetime less than 2^31 seconds from the epoch, aware or naive, and loads it back to the microsecond; the stored number is within 249 ns of the exact one and every number that close loads as the same datetime. After 2038 some datetimes come back a microsecond off (violated).", "quantifier": "every microsecond of 1901 to 2038", "why_tests_cant": "four successive float roundings over 4*10^15 instants", "anchors": ["binobj/fields/numeric.py:Timestamp"]}
{"id": "C73", "title": "Dumping, reading and comparing end unless something refers to itself", "statement": "If the classes can be ranked so that fields, defaults, nulls and computed values refer only to classes of lower rank, and the fields of each class so that computing functions and present functions read only fields of lower depth, then to_stream, partial_dump, to_dict, item access, validation, len(), get_size and == all end, for every instance and every field value, with one answer or exception. Two fields computing each other, or a class nested in itself by default, never end.", "quantifier": "every class table without circles, every instance, context and value with no instance inside a generator", "why_tests_cant": "termination for all schemas and values", "anchors": ["binobj/structures.py:Struct", "binobj/fields/base.py:compute_value_for_dump", "binobj/fields/containers.py"]}
{"id": "C74", "title": "What a dump raises", "statement": "If every value has the Python type of its field, sizes and counts refer to integer fields that are always there, and validators, defaults and computing functions raise nothing outside a set A (which includes UnicodeEncodeError for text and OverflowError for narrow floats), then to_stream, to_bytes, partial_dump and validation raise only errors of the library or exceptions in A, and to_dict raises nothing once every field can be read. This fails where the library's code goes around its own accessors: to_dict raises KeyError rather than the documented MissingRequiredValueError if a computed field asks for an unset field declared after it, so does dumping a struct that contains such an instance, and partial_dump raises AttributeError on a field that loading found absent.", "quantifier": "every class table, instance, value of the right type, context, set of allowed exceptions", "why_tests_cant": "exception freedom over all schemas and values", "anchors": ["binobj/structures.py:Struct.to_stream", "binobj/structures.py:Struct.to_dict", "binobj/structures.py:Struct.partial_dump", "binobj/fields/base.py:Field.to_stream"]}
{"id": "C75", "title": "The wire format", "statement": "A description of the format written without the library's dump code says which bytes stand for which data: integers in base 256, VLIs in their shortest form, IEEE floats, UUID layouts, terminated and padded text, None, arrays, nested structs, unions, absent and discarded components. For data of the right types an instance dumps if and only if its validators pass and the description has bytes for it, and then to exactly those bytes; the description allows one sequence of bytes for the same data; and bytes made after the description by any program load as the data they stand for.", "quantifier": "every class table, schema of the described kinds, value, context, surrounding data", "why_tests_cant": "an equivalence over all schemas and data", "anchors": ["binobj/structures.py:Struct.to_stream", "binobj/fields/base.py:Field.to_stream", "binobj/fields/containers.py:Array", "binobj/fields/containers.py:Union", "binobj/fields/numeric.py:VariableLengthInteger", "binobj/fields/stringlike.py:String"]}
{"id": "C76", "title": "Equality after a round trip", "statement": "An instance that dumps and is read back (under the conditions of the struct round trip, with no component absent) compares equal to the copy, in either order, exactly if the fields set on it are all those that are not discarded. So an instance that relies on a default or a computed value differs from T.from_bytes(x.to_bytes()).", "quantifier": "every class table, schema of the round trip, instance, context, surrounding data", "why_tests_cant": "an equivalence over all schemas and instances", "anchors": ["binobj/structures.py:Struct.__eq__", "binobj/structures.py:Struct.from_stream", "binobj/structures.py:Struct.to_dict"]}
{"id": "C77", "title": "Byte order marks", "statement": "String and StringZ with \"utf-8-sig\", \"utf-16\" or \"utf-32\" write the mark of the machine's byte order before the text, and read text with the mark of either order, whatever the machine. Dumping what was read from a String gives the same number of bytes, and the same bytes exactly if they were in the machine's order. Text without a mark is read by a String in the machine's order but cannot be written back at that size (ValueSizeError); by a StringZ only for \"utf-8-sig\": for \"utf-16\" and \"utf-32\" it is a UnicodeError, and data without a mark is never loaded.", "quantifier": "every text, encoding with a mark, byte order, field configuration, context, surrounding data", "why_tests_cant": "all texts times the byte order of the machine the tests do not run on", "anchors": ["binobj/fields/stringlike.py:String", "binobj/fields/stringlike.py:StringZ"]}
{"id": "C78", "title": "Code pages", "statement": "With a single-byte encoding a String of n bytes loads the n characters the code page assigns to them, or raises UnicodeDecodeError if one is not assigned; a text of n characters is dumped as n bytes the code page assigns to them, or raises UnicodeEncodeError if one has no byte. Dumping what was loaded gives the same bytes if no character has two bytes; otherwise it may not.", "quantifier": "every code page, byte string, text, field configuration, context, surrounding data", "why_tests_cant": "all code pages and texts", "anchors": ["binobj/fields/stringlike.py:String", "binobj/fields/stringlike.py:StringZ"]}
{"id": "C79", "title": "Arrays with their own halt check", "statement": "An Array with a halt check asks it before every element, with the stream, the elements so far, the context and the fields loaded before; it stops where the check first says so, carries on with the list the check left, ignores count, leaves out elements that are not present, and passes on exceptions of the check and of the elements (deserialization errors under the array's name). A check that stops after a sentinel element gives exactly the elements up to the first sentinel, with it or without it. With the sentinel kept, dumping and loading gives the same list; with the sentinel removed, what was loaded is dumped without it and cannot be loaded again. Bytes, text and dicts given to an Array are dumped as the list of their bytes, characters and keys.", "quantifier": "every check, element field, count, context, stream, value", "why_tests_cant": "checks are arbitrary functions and the elements arbitrary fields", "anchors": ["binobj/fields/containers.py:Array.should_halt", "binobj/fields/containers.py:Array._do_load", "binobj/fields/containers.py:Array._do_dump", "binobj/fields/containers.py:Array._dump_unsized"]}
{"id": "C80", "title": "Reading fields and what callables see", "statement": "Reading a field of a struct gives the stored value, otherwise its default, the result of its factory, or its computed value - the callable sees the same struct, where reading another field follows the same rules - or NOT_PRESENT if the present callable says no; it gives one result, and if the rules give none (computed fields that need each other) reading never ends. While loading, callables see exactly the fields loaded so far; present decides between reading the field as if it were always there and leaving the stream alone. to_dict shows these values. A struct that was dumped was accepted by every validator, each looking at these values.", "quantifier": "every class, callable, stored values, stream, context", "why_tests_cant": "callables are arbitrary programs reading arbitrary fields", "anchors": ["binobj/structures.py:Struct.__getitem__", "binobj/structures.py:Struct.to_dict", "binobj/structures.py:Struct.validate_contents", "binobj/fields/base.py:Field.compute_value_for_dump", "binobj/fields/base.py:Field.from_stream"]}
{"id": "C81", "title": "A subclass's data starts with its base class's data", "statement": "A class created from a base class has the base's fields and validators, followed by its own, also when it is declared with annotations. Whatever a subclass loads, the base class loads from the same stream, with the same values for the shared fields, and the subclass's own fields are read from where the base class stopped. If the callables of the base class look only at its own fields, a shared field reads the same in both classes, to_dict of the subclass contains that of the base class, and the dump of an instance starts with the dump of its base part.", "quantifier": "every class hierarchy, stream, context and stored values", "why_tests_cant": "relates the behaviour of two arbitrary classes on arbitrary data", "anchors": ["binobj/structures.py:StructMetadata.from_class", "binobj/structures.py:Struct.from_stream", "binobj/structures.py:Struct.to_stream", "binobj/structures.py:Struct.to_dict", "binobj/pep526.py:dataclass"]}
{"id": "C82", "title": "Truncated data is reported as truncated", "statement": "If data loads and the schema is self-delimiting and without null-terminated text, then loading the data cut off anywhere before the end of the struct raises UnexpectedEOFError, at any nesting depth, also for null values, variable-length integers, arrays and unions. partial_load of the truncated data returns exactly the fields whose data is complete, with the values the whole data gives them, and leaves the stream behind the last of them. Null-terminated text has to be excluded.", "quantifier": "every such schema, data, context and cutting point", "why_tests_cant": "the cut can fall inside any field at any depth of any schema", "anchors": ["binobj/structures.py:Struct.from_stream", "binobj/structures.py:Struct.partial_load", "binobj/fields/base.py:Field.from_stream", "binobj/fields/base.py:Field._read_exact_size", "binobj/helpers.py:read_int"]}
{"id": "C83", "title": "A change to one field stays local", "statement": "If a set of fields depends only on fields of that set (sizes, counts, presence, computed values, union choices), then two instances that agree on them read and dump those fields alike, whatever the other fields hold. Two instances that differ in a single field no other field depends on (for example by assigning to it) have dumps that differ in the bytes of that field only. If that field has a constant offset and size, the new dump is the old one overwritten at that place. Without independence this fails: changing a body changes its computed length.", "quantifier": "every class, set of fields, pair of instances and context for which both dumps succeed", "why_tests_cant": "any schema with any dependencies between fields, any two sets of values", "anchors": ["binobj/structures.py:Struct.to_stream", "binobj/structures.py:Struct.to_dict", "binobj/structures.py:Struct.__setitem__", "binobj/fields/base.py:Field.compute_value_for_dump", "binobj/fields/base.py:Field.get_expected_size"]}
{"id": "C84", "title": "Data written before a class got more fields", "statement": "If a class extends a base class (without discard fields) and its first own field needs data (a number, text or UUID of positive constant size, a variable-length integer, a struct starting with such a field, a positive constant number of such fields), then from data that ends where the base class's data ends, partial_load of the subclass returns exactly what the base class loads and leaves the stream at the end, while from_stream raises UnexpectedEOFError. If the instance can be dumped as one of the subclass, its data is what the base class dumps followed by the new fields. A first new field that needs no data is loaded from none.", "quantifier": "every class, base class, data and context", "why_tests_cant": "all schemas and their extensions, all data", "anchors": ["binobj/structures.py:Struct.partial_load", "binobj/structures.py:Struct.from_stream", "binobj/structures.py:Struct.to_stream", "binobj/structures.py:StructMetadata.from_class"]}
{"id": "C85", "title": "The example file formats", "statement": "The classes of the project's full examples implement their file formats, described here without reference to the library. A WAV file header, format chunk and data chunk and a bitmap header are loaded exactly from the byte strings of that form (constants included), giving the numbers in it, and from nothing else; they are dumped in that form from the user's values (with computed sizes and rates) and from what was loaded, so loading and dumping a bitmap header gives the same 54 bytes. A whole WAV file is written and read struct by struct. Audio of 4 GiB or more raises UnserializableValueError. A cpio entry is dumped in its form from all attributes, from what was loaded, or from name, time and contents alone (with the defaults), with a padding byte exactly if the stored name size is odd, and an entry of that form is loaded whatever the length of its name.", "quantifier": "every file of the formats, every position in a stream", "why_tests_cant": "numbers, names and contents of any size; a test has one file of each format", "anchors": ["tests/full_examples/wav_test.py:WAVDataChunk", "tests/full_examples/wav_test.py:WAVFormatChunk", "tests/full_examples/wav_test.py:WAVFileHeader", "tests/full_examples/bmp_test.py:SimpleBMPFileHeader", "tests/full_examples/cpio_test.py:CPIOFileHeader", "binobj/structures.py:Struct.from_stream", "binobj/structures.py:Struct.to_stream"]}
{"id": "C86", "title": "Nested fields", "statement": "A Nested field alone dumps an instance of any struct class as that class dumps it, and a dictionary as an instance of the declared class would be dumped (keys the class lacks raise UnexpectedValueError, which names all of them); the bytes have to fit the field's size. It loads exactly what the declared class loads at that position. Inside a struct, an instance is first converted with to_dict() and the declared class dumps the dictionary: all fields of the instance's class must be fields of the declared class, and an instance of the declared class is dumped as its own dump where C64 applies. Refuted: that an instance of another class is dumped in a struct as the field alone dumps it: it raises UnexpectedValueError or is silently written with the fields of the declared class.", "quantifier": "every class, value, context and position", "why_tests_cant": "any schema, any depth of nesting; the tests nest instances of the declared class", "anchors": ["binobj/fields/containers.py:Nested._do_dump", "binobj/fields/containers.py:Nested._do_load", "binobj/structures.py:Struct.to_stream", "binobj/structures.py:Struct.to_dict", "binobj/structures.py:recursive_to_dicts"]}
{"id": "C87", "title": "Rewriting settles", "statement": "Classes whose fields may accept several byte forms of a value (variable-length integers, UUIDs as text, code pages with two bytes for one character, terminated text with any byte order mark), or are canonical as in C63, and arrays, nested structs and unions of such: whatever data an instance is loaded from, it can be dumped, and the dump is loaded as the same instance in any position, consuming exactly the dump; so rewriting twice writes the same bytes as rewriting once, and a stream of structs rewritten is read as the same structs. Refuted: for nullable variable-length integers (a longer form of the null value is loaded as a number and written as the null value), for max_bytes (not checked on loading, so the loaded value cannot be dumped) and for timestamps below a second (truncated as floats: each rewrite may lose another unit).", "quantifier": "every class of the described form, all data, positions, contexts and following bytes", "why_tests_cant": "all non-minimal encodings in any combination and depth; the tests only load what was dumped before", "anchors": ["binobj/structures.py:Struct.from_stream", "binobj/structures.py:Struct.to_stream", "binobj/fields/numeric.py:VariableLengthInteger", "binobj/fields/numeric.py:Timestamp", "binobj/fields/stringlike.py:StringZ", "binobj/fields/stringlike.py:UUID4"]}
{"id": "C88", "title": "Naive timestamps in local time", "statement": "For any local time zone whose clocks change at most once within three days of the time in question (offsets under a day, at most a day repeated), and away from the ends of the years 1 and 9999: a Timestamp field dumps a naive datetime, at any resolution, as a machine in UTC dumps the instant its reading stands for (the first instant the local clock shows it, the last one if fold is set), and loads what a machine in UTC loads, shown on the local clock, with fold set exactly if the clock showed the same in the 24 hours before; dumping that writes what UTC writes. So whole seconds that the clock shows come back, also those it shows twice. A reading skipped when clocks are put forward is dumped as the instant shown that much later (earlier with fold). With zone UTC this is the model of all other properties. Refuted: that every naive datetime is loaded as it was dumped: not if its reading is skipped, nor on a machine in another zone.", "quantifier": "every zone, reading, instant, resolution, byte order, size and stream", "why_tests_cant": "a test runs in one time zone; changes of clocks occur on single days", "anchors": ["binobj/fields/numeric.py:Timestamp._do_load", "binobj/fields/numeric.py:Timestamp._do_dump"]}
{"id": "C89", "title": "Structs written and read in part", "statement": "For fields that the round trip covers (C27), do not refer to other fields and are not discarded: what partial_dump writes up to a field, partial_load up to that field reads as the same values, whatever follows; without a last field partial_dump stops at the first field without value or default, and partial_load of its output returns exactly the fields before that field, if that field cannot be read from no data. If missing values are set later and nothing else is changed, the complete dump begins with what partial_dump wrote (classes without references, computed or conditional fields). Refuted without that condition: an array without count is returned, empty, although it was never dumped.", "quantifier": "every class, instance, last field, position and following bytes of the described form", "why_tests_cant": "all sets of missing fields, nested structs and arrays", "anchors": ["binobj/structures.py:Struct.partial_dump", "binobj/structures.py:Struct.partial_load"]}
{"id": "C90", "title": "Version numbers", "statement": "VersionInfo.from_string accepts exactly the ASCII texts 'major.minor' or 'major.minor.patch' (decimal numbers as int() reads them; anything after a third dot is ignored), optionally followed by '-' and a suffix, gives the numbers they spell, 0 for a missing patch and None for an empty suffix, and raises ValueError for every other text. Its numbers are never negative. str() of a version without negative numbers or empty suffix is the decimal text with dots, parses back to the same version, and differs for different versions. Refuted: that it reads the versions of Python packages: PEP 440 pre-releases such as '0.12.0rc1' raise ValueError and '.dev1' or '.post1' is lost.", "quantifier": "every ASCII text, every version", "why_tests_cant": "infinitely many texts", "anchors": ["binobj/__init__.py:VersionInfo.from_string", "binobj/__init__.py:VersionInfo.__str__"]}
{"id": "C91", "title": "Error messages", "statement": "Names appear in messages as string literals, which are printable and can be read back to exactly the name. str() of a field determines its class and name, repr() the dotted path of its class and its name. A message not given is the first line of the docstring of the exception's class. ConfigurationError raises ValueError exactly if field, struct and obj are all missing or falsy, keeps a message given, and otherwise names the culprit. The messages of UnexpectedEOFError and ArraySizeError give their numbers in decimal ('at least' exactly if more than expected were given) and determine them. Creating a struct with unknown fields gives a message with the number of distinct unknown names and each of them once, in ascending order; it determines class and names. Field.from_bytes says how many bytes are left over. Refuted: that Struct.from_bytes says how many bytes were read (it gives one more), that the error about two struct bases names the struct (it always names 'StructMetadata'), and that the error about a recursing field shows the value (it shows the placeholder).", "quantifier": "every ASCII name and text, all integers, all sets of names, any struct class and data", "why_tests_cant": "infinitely many names and numbers; ambiguity is a property of pairs of messages", "anchors": ["binobj/errors.py:Error.__init__", "binobj/errors.py:ConfigurationError.__init__", "binobj/errors.py:UnexpectedValueError.__init__", "binobj/errors.py:ArraySizeError.__init__", "binobj/errors.py:UnexpectedEOFError.__init__", "binobj/fields/base.py:Field.__str__", "binobj/fields/base.py:Field.__repr__", "binobj/structures.py:Struct.from_bytes"]}
{"id": "C92", "title": "Annotations as written; decorators for validators", "statement": "An annotation (each piece of metadata if it is Annotated) stands for a field exactly if it is a Field class, a Struct class or a Field instance, or a typing.Union of one of these with None; a Field class is nullable exactly in the latter case; any other typing.Union is rejected; everything else stands for no field. A decorated method validates the fields named by the decorator next to it (each as often as named), or the struct if that is validates_struct; validates without arguments or with an argument that is no string raises TypeError. Refuted: that annotations mentioning a Field class and None make a nullable field (UInt8 | None and Optional[Annotated[int, UInt8]] are silently ignored, Annotated[Optional[int], UInt8] is not nullable), and that each of several stacked decorators has an effect (only the innermost has).", "quantifier": "every annotation and every stack of decorators, any class body", "why_tests_cant": "infinitely many nestings of annotations and decorators", "anchors": ["binobj/pep526.py:flatten_annotations", "binobj/pep526.py:AnnotationInfo.from_annotation", "binobj/pep526.py:AnnotationInfo.make_field_instance", "binobj/decorators.py:ValidatorMethodWrapper", "binobj/decorators.py:validates", "binobj/decorators.py:validates_struct"]}
{"id": "C93", "title": "Shared objects", "statement": "to_dict changes no existing object; its result contains no struct at any depth, has the fields that are not discarded in order, and shares no mutable object with the struct or anything else but bytearrays: later changes to older objects do not show in it, nor changes anywhere inside it in older objects. Objects without structs are copied faithfully. Assigning or deleting a field changes that field of that instance only; computed and constant fields cannot be assigned. Refuted: that the result is independent of bytearrays in the struct, that instances do not change with the objects given to the constructor, that instances that share nothing are independent (a mutable default is the same object in all of them), and that constants cannot be changed through an instance (a list given as a constant can).", "quantifier": "every class table, heap of mutable objects with any sharing or cycles, conversion and later change", "why_tests_cant": "all object graphs times all changes", "anchors": ["binobj/structures.py:recursive_to_dicts,Struct.__init__,Struct.to_dict,Struct.__delitem__", "binobj/fields/base.py:Field.__get__,Field.__set__,Field.compute_value_for_dump"]}
{"id": "C94", "title": "Streams other than BytesIO", "statement": "Loading from a stream whose reads may return fewer bytes than asked for (a raw file, a pipe, a socket) gives the value and position it would from an io.BytesIO, or raises UnexpectedEOFError, if no field is nullable; variable-length integers, null-terminated strings and what is made of them are loaded the same always, and structs of strings even from a stream that cannot tell its position or seek. Any other field with a size, any variable-length integer and any field with a null representation fails on such a stream before a byte is read. Refuted: that UnexpectedEOFError means that the data has ended, and that a nullable field is loaded correctly if it is loaded (its null representation is missed when peeking returns only part of it).", "quantifier": "every field and struct class with callables that do not look at the stream, all data, positions and ways of splitting the reads", "why_tests_cant": "all ways in which a stream can split the data", "anchors": ["binobj/fields/base.py:Field.from_stream,Field._read_exact_size", "binobj/helpers.py:peek_bytes", "binobj/varints.py", "binobj/fields/stringlike.py:StringZ._do_load", "binobj/structures.py:Struct.from_stream"]}
{"id": "C95", "title": "User-defined fields", "statement": "For a subclass of Field with any _do_dump, _do_load, _size_for_value and _add_padding: an object is written as what _do_dump wrote, refused if it is longer than the field's size and filled up by _add_padding if it is shorter, as a whole or not at all; _do_dump is only called with objects the validators accept and with the null value; what is loaded is what _do_load returns if it is accepted, and its errors are passed on with the field's name. If _do_load undoes _do_dump, then from_stream undoes to_stream for the field, for structs of such fields (with absent and null ones), and arrays, nested structs and unions of them have the same property again. The library's own fields and structs are special cases. Refuted: that a field with a fixed size takes that many bytes when it is loaded, and when it is dumped (the length of what _add_padding returns is not checked).", "quantifier": "all functions a subclass may define, all fields, values, dictionaries, contexts and surrounding data", "why_tests_cant": "all programs that use the library's extension points", "anchors": ["binobj/fields/base.py:Field.to_stream,Field.from_stream,Field.get_expected_size,Field._get_null_repr,Field._add_padding", "binobj/fields/containers.py:Array,Nested,Union", "binobj/structures.py:Struct.to_stream,Struct.from_stream"]}
{"id": "C96", "title": "Writing to other streams", "statement": "A field is written by exactly one call of the stream's write with all its bytes, however deep it is nested, or by none if it cannot be dumped; a struct by one call for each field that is present, in order. If write raises an exception, it is passed on and the stream holds exactly the fields before and what write took of the field being written. For streams that write everything or raise, what arrives is always the beginning of the dump, and all of it if no exception is raised; so for partial_dump. Refuted: that the dump is complete when to_stream returns, on streams whose write may write less than it is given (write's return value is ignored).", "quantifier": "all streams (any function telling how much of each write is written and whether it raises), classes, values, contexts", "why_tests_cant": "all ways in which each write may fail", "anchors": ["binobj/fields/base.py:Field.to_stream", "binobj/structures.py:Struct.to_stream,Struct.partial_dump"]}
{"id": "C97", "title": "repr of structs, and what fields tell", "statement": "repr() of a struct is the name of its class followed by the values that are set, each written as Python writes it, nested structs, lists and dictionaries included; it can be read in one way only, so structs with the same repr have the same class and the same values in the same order. A field that is required, not computed, present and missing makes dumping raise MissingRequiredValueError. __objclass__ of a field is the class declared last among those that have the field. Refuted: that __objclass__ is the class defining the field (declaring a subclass changes it), that a required field must be given (computed fields are said to be required), and that a field that is not required need not be given (a field with only a factory must).", "quantifier": "all values made of None, the sentinels, integers, ASCII strings, bytes, UUIDs, lists, dictionaries and structs, nested at will; all sequences of class statements; all fields", "why_tests_cant": "ambiguity is a property of pairs of unboundedly nested values", "anchors": ["binobj/structures.py:Struct.__repr__,Struct.__init_subclass__", "binobj/fields/base.py:Field.required,Field.is_computed_field,Field.compute_value_for_dump"]}
{"id": "C98", "title": "Callables that change their minds", "statement": "Even if compute, present and factory functions answer differently each time they are called, a dump that succeeds has settled on one dictionary of values: every field that is not discarded is written once, with its value in that dictionary, or is absent; sizes and counts are taken from the same dictionary; the validators of the fields accept what is written. Values that are set are in that dictionary, unless absent, and are what the validator methods have seen. With functions that do not change, this is dumping as modelled elsewhere. Refuted: that a computed value is written only if the validator methods accepted it; the function is called again after validation.", "quantifier": "all classes, values, contexts, fuels and all ways callables may change from call to call", "why_tests_cant": "the number and order of calls is unbounded, and tests use deterministic functions", "anchors": ["binobj/structures.py:Struct.to_stream,Struct.validate_contents,Struct.to_dict,Struct._to_dict_whatever_possible", "binobj/fields/base.py:Field.compute_value_for_dump,Field.__get__"]}
{"id": "C99", "title": "Warnings that are errors", "statement": "Where warnings are turned into errors, dumping a struct or field gives the same bytes or exception as elsewhere, unless a warning stops it after a part of those bytes. to_dict never warns unless a compute, present or factory function itself raises a library error other than SerializationError and UndefinedSizeError; without dates, dumping then never warns. A Timestamp warns about a date just if only one of them has a time zone, and never about dates it has loaded. Refuted: that without dates a struct that can be dumped can be dumped where warnings are errors.", "quantifier": "all classes, values, contexts and fuels; all callables", "why_tests_cant": "which errors callables raise, at which depth, is unbounded; no test covers the warning", "anchors": ["binobj/structures.py:Struct._to_dict_whatever_possible,Struct.to_dict,Struct.to_stream", "binobj/fields/numeric.py:Timestamp._do_dump,Timestamp._do_load"]}
{"id": "C100", "title": "How often callables are called", "statement": "If all values of a struct are set, validating it and converting it to a dictionary evaluates each field (its stored, default or computed value, and present) at most twice in all, and writing takes two more evaluations for each field. Computed values that are not set are computed again each time they are read: for every m there is a class of m + 1 computed fields, each reading the one before twice, whose validation takes at least 2^(m+2) - 2 evaluations.", "quantifier": "all classes, values and callables, which may also change from call to call; all m", "why_tests_cant": "growth rates show only as m goes to infinity", "anchors": ["binobj/structures.py:Struct.validate_contents,Struct.to_dict,Struct._to_dict_whatever_possible", "binobj/fields/base.py:Field.__get__,Field.compute_value_for_dump"]}
{"id": "C101", "title": "Hosts with different byte orders", "statement": "If every number of more than one byte gives its byte order, then structs, fields and parts of structs are dumped and loaded in the same way on all hosts, and dicts, comparisons and lengths are the same. An integer that gives none is written backwards on a host of the other kind; it need not give one if its class has a default. Refuted: that floats and timestamps take that default, and that what one host has written another reads if no byte order is given.", "quantifier": "all hosts, classes, values, streams, contexts and fuels", "why_tests_cant": "tests run on one host; every reader and writer must agree for all nestings of fields", "anchors": ["binobj/fields/numeric.py:Integer.__init__,Float.__init__,Timestamp.__init__", "binobj/fields/base.py:Field.bind_to_container", "binobj/helpers.py:read_int,write_int"]}
{"id": "C102", "title": "Callables that read from the stream", "statement": "If present functions, halt checks and load deciders put the stream back after reading from it, structs and fields are loaded as if they had read nothing. If they only read and seek, loading never changes the data; if they never seek back, loading never goes back. After an absent field the stream is where present has left it. Refuted: that loading ends if they seek back, and that what is loaded with callables that read on can be loaded again after dumping it.", "quantifier": "all classes, callables, ways to move the stream, streams, contexts and fuels", "why_tests_cant": "what callables read depends on the data; they may be called at any depth", "anchors": ["binobj/fields/base.py:Field.from_stream", "binobj/fields/containers.py:Array._do_load,Array.should_halt,Union._do_load", "binobj/structures.py:Struct.from_stream"]}
{"id": "C103", "title": "Array counts that are floats", "statement": "An array whose count is a finite float is loaded as if the count were rounded up; loading never succeeds with a NaN or infinity, and reads nothing with minus infinity. A float that is a whole number counts like the integer when dumping. With any other float no sized value can be dumped; of a generator all elements are written and it is an error if they are fewer. Refuted: that lists and generators are dumped alike, and that all elements written are loaded again.", "quantifier": "all doubles, components, values and streams", "why_tests_cant": "all bit patterns of doubles; tests use integers only", "anchors": ["binobj/fields/containers.py:Array.get_final_element_count,Array.should_halt,Array._do_dump,Array._dump_unsized,Array._do_load", "binobj/errors.py:ArraySizeError"]}
{"id": "C104", "title": "Text in any encoding", "statement": "Whatever the encoding, StringZ stops at the first byte for which the codec's incremental decoder gives out a NUL and nothing else. If every character has its own bytes (as in Shift-JIS, GBK, GB 18030, Big5, EUC), StringZ loads every NUL-free text it dumped and stops right after the terminator, and String loads every text that fills its size. With UTF-7, String does too, but StringZ loads back exactly the texts whose last character (not counting plus signs) is written as it is. Refuted: that StringZ loads back any NUL-free text it can dump; with UTF-7 the terminator after an accented letter goes unnoticed and the following data is taken as text.", "quantifier": "all encodings (any encode, decode and incremental decoder functions); all prefix-free tables; all Unicode texts; all surrounding data", "why_tests_cant": "all codecs and all texts; a test tries a few encodings and strings", "anchors": ["binobj/fields/stringlike.py:String._do_load,String._do_dump,String._encode_and_resize,StringZ._do_load,StringZ._do_dump", "binobj/helpers.py:iter_bytes"]}
{"id": "C105", "title": "Callables that write into the loaded fields", "statement": "The present functions, halt checks and load deciders of a struct get its dictionary of loaded fields itself. If none of them writes into it, loading is as usual. If they only add entries, the first entry for a field wins, even over what is then read for that field; an entry for anything but a field makes loading fail. Nested structs have a dictionary of their own and can neither see nor change the outer one. Sizes, counts and choices go by what has been written, and arrays look up their count again before every element. Refuted: that an array has as many elements as its count says when loading it begins, and that an instance has what was read for a field.", "quantifier": "all classes, callables (any functions from what they are given to the dictionary they leave), data, contexts and overrides", "why_tests_cant": "all callables and all data; a test tries one callable with one input", "anchors": ["binobj/structures.py:Struct.from_stream", "binobj/fields/base.py:Field.from_stream", "binobj/fields/containers.py:Array._do_load,Array.should_halt,Union._do_load"]}
{"id": "C106", "title": "Callables that write into the fields being dumped", "statement": "The compute functions, present functions and dump deciders called while a struct is dumped get its dictionary of fields itself. If none of them writes into it, dumping is as usual. Every field is dumped from the dictionary that the fields before it have left, so an entry written for a later field is dumped instead of the instance's own value. A field without an entry is dumped with its default, and is computed only if it has none; then present functions see what the compute function has written, as the choice of a union sees what its decider has written. If callables only add entries, fields that are not discarded keep their values. Nested structs have a dictionary of their own. The count of an array is looked up once, before its elements. Refuted: that a field is dumped with the value to_dict gives, and that callables which only add entries change nothing (an entry for a discarded field takes the place of its default).", "quantifier": "all classes, callables (any functions from what they are given to the dictionary they leave), instances and contexts", "why_tests_cant": "all callables and all instances; a test tries one callable with one instance", "anchors": ["binobj/structures.py:Struct.to_stream", "binobj/fields/base.py:Field.compute_value_for_dump,Field.to_stream", "binobj/fields/containers.py:Array._do_dump,Union._do_dump"]}
{"id": "C107", "title": "Classes with constructors of their own", "statement": "Struct subclasses may have constructors with arguments beyond the fields, which from_stream passes on from init_kwargs. Whatever a constructor does, it gets all of init_kwargs unchanged and a value for every field; what it stores is validated, and discarded fields are taken out. A class that takes further arguments and is not contained in others is loaded with init_kwargs containing them as an ordinary class is with the rest of init_kwargs, if its fields do not look at these arguments, and is dumped like an ordinary class. Without a required argument loading raises TypeError after all fields were read; Nested and Union fields, partial_load and get_field (unless the offset is known) pass none, so they never load such a class. A Nested field alone dumps its instances and dictionaries with the arguments. Refuted: that a class that can be loaded can be loaded nested; that an instance that can be dumped can be dumped inside a struct (it is constructed again from its fields only); that further arguments do not influence what is loaded (callables see them among the loaded fields).", "quantifier": "all classes, constructors (any functions from keyword arguments to stored values or an exception), init_kwargs, data and instances", "why_tests_cant": "all constructors and classes; a test tries one constructor with one class", "anchors": ["binobj/structures.py:Struct.__init__,Struct.from_stream,Struct.from_bytes,Struct.partial_load,Struct.get_field,Struct.to_stream", "binobj/fields/containers.py:Nested._do_dump,Nested._do_load,Union._do_dump,Union._do_load"]}
{"id": "C108", "title": "to_dict and JSON", "statement": "The change log says that the output of to_dict() is JSON-serializable if all fields are defined. A value can be written with json.dumps and read back exactly if it consists of None, numbers, text, lists and dictionaries, and its integers have at most 4300 digits; otherwise TypeError or ValueError is raised, TypeError only if there is something else in it. It comes back unchanged exactly if also its NaNs are the usual one and its text has no split surrogate pairs; keys stay, and what has come back once stays as it is. to_dict of a loaded instance whose fields (also in arrays, nested structs and unions, none of them conditional) are numbers and text never makes json raise TypeError, with integers of limited size never anything, and without floats it comes back unchanged, so that a struct made from it dumps the same bytes. Refuted: that every to_dict output of a loaded instance can be written (bytes, and fields that are not present), and that what comes back always dumps the same bytes (NaN payloads).", "quantifier": "all values; all classes of these kinds, all data and instances", "why_tests_cant": "all class shapes and values; a test tries one class", "anchors": ["binobj/structures.py:Struct.to_dict,recursive_to_dicts", "docs/source/CHANGELOG.rst:0.2.1"]}
{"id": "C109", "title": "Loading with callables that change their minds", "statement": "Even if present functions answer differently each time they are called, from_stream asks each exactly once, at its turn; if the answer is yes the field is read as if it were always there, otherwise it is not_present_value and the stream stays where it is. The values so read are those that are validated and, except for discarded ones, kept; no other callable is called, every field gets a value, the data is not changed and the stream only moves forward. Failures and partial_load are those of loading with the functions as they are at their turns. With functions that do not change this is loading as modelled elsewhere. All loaded values have been accepted by all validators (for dumping this is refuted in C98). Refuted: that loading the same data again gives the same values, and that what was loaded is dumped as the same bytes.", "quantifier": "all classes, all functions of time for the present functions, all data and start times", "why_tests_cant": "all functions of time; a test has one fixed sequence of answers", "anchors": ["binobj/structures.py:Struct.from_stream,Struct.partial_load,Struct.validate_contents", "binobj/fields/base.py:Field.from_stream"]}
{"id": "C110", "title": "Equality and object identity", "statement": "Struct.__eq__ compares two dictionaries, and Python takes items of lists and dictionaries that are the same object to be equal without asking ==. So two structs are equal exactly if their converted contents are the same data, where a NaN and a generator are the same as themselves; with this, equality is reflexive, symmetric and transitive for all contents, also with NaN (C47 leaves these out). Copies are equal if there are no NaNs and generators in them. What is equal in the model of C47 is equal, and what is not is not, unless a NaN or a generator is in both structs. Refuted: that structs with the same values are equal, such as two loaded from the same bytes.", "quantifier": "all contents (numbers, text, bytes, lists and dictionaries of any depth), all ways in which float and generator objects are shared", "why_tests_cant": "all nestings and all sharings; a test compares a few structs", "anchors": ["binobj/structures.py:Struct.__eq__,recursive_to_dicts"]}
{"id": "C111", "title": "Round trips with changing values", "statement": "Suppose that computing functions and default factories answer differently each time they are called (random numbers, clocks, counters), but present functions do not. For the structs of C27, loading what has been dumped gives, whenever it is done, exactly the dictionary of values on which the dump had settled. In the loaded struct all fields with such functions are set, and a struct in which they are set (and not discarded) is dumped and converted to a dictionary as if the functions did not change; loading never depends on them. Refuted: that a struct is dumped as the same bytes again if a computed field is not set, or if it is set but discarded.", "quantifier": "all classes, all functions of time for compute functions and factories, all instances and times; the round trip for the classes of C27", "why_tests_cant": "all functions of time and all structs; a test has one fixed sequence of answers", "anchors": ["binobj/structures.py:Struct.to_stream,Struct.to_dict,Struct.from_stream", "binobj/fields/base.py:Field.compute_value_for_dump"]}
{"id": "C112", "title": "Files with several structs", "statement": "Any number of structs, of any of the classes of C27, dumped one after the other into a stream are read back by from_stream of their classes one after the other: each has the same data, the stream is then just behind the last one, and what precedes or follows them does not matter. Reading only the first few ends exactly where the next one begins. Such files can be appended to each other, and the bytes determine the data of all structs in them.", "quantifier": "all lists of instances of the classes of C27 (those not reading to the end of the stream), all bytes before and after", "why_tests_cant": "lists of any length; a test has two or three structs", "anchors": ["binobj/structures.py:Struct.to_stream,Struct.from_stream"]}
