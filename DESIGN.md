# Formal model of dargueta/binobj in Coq

## 1. What is being verified

`/repo/binobj` is a declarative binary (de)serialization library.  Its semantic core is
pure logic over byte strings: variable-length integers, field dumpers/loaders, size and
null resolution, struct traversal, class construction.  We model that core as total
Gallina functions that mirror the Python functions branch by branch, exceptions being
values, and prove the properties of `properties.jsonl` about the model.

Every definition in `theories/*Model*.v` carries a comment with the file and lines it
mirrors and the simplifications made.

## 2. Modelling conventions

* **Integers / bytes.** Python ints are `Z`; byte strings are `list Z`; `bytes_ok` says
  every element is in 0..255.  Text is a list of code points (`list Z`).
  Names (field names, dict keys) are Coq `string`s.
* **Exceptions.** `res A := Ok a | Raise e | OOF`.  `exn` has one constructor per
  exception class the code raises or lets escape, with the payload the property talks
  about (field name, size, offset, counts).  Messages are modelled apart, in `Messages.v` (C91), as
  functions of that payload and of the texts of class names and values.  Subclass tests
  (`except errors.DeserializationError`) are boolean functions on `exn`.
* **Fuel.** Recursion through user-controlled structure (nested instances, array loops,
  computed fields) runs on explicit `nat` fuel; `OOF` is a distinct result that is never
  caught by modelled `except` clauses and never identified with a normal outcome.
  Fuel monotonicity is proved, so "returns r" means `exists n, run n = r` with a unique r,
  and divergence is `forall n, run n = OOF`.
* **Input streams** are seekable in-memory streams (`io.BytesIO`): data and position.
  Loaders have type `stream -> stream * res A`, so the position after a failure is
  observable.  **Output streams** are append-only: dumpers return `(bytes written, res)`
  so partial writes before a failure are observable.
* **User callables** (validators, `present`, compute functions, deciders, halt checks,
  factories) are arbitrary *pure* functions, quantified over.  Those that inspect a
  mapping that may be a Struct (where `x[name]` may itself compute) are `query` terms: a
  free monad with `name in m`, `m[name]` and `list(m)`, interpreted over a dict or over a
  struct instance.  Callables that answer differently
  each time are modelled for dumping in `Moods.v` (C98) and for loading in `MoodLoads.v` (C109); callables that move the stream they are given
  in `Readers.v` (C102), and callables that write into the dictionary of loaded fields or of fields being dumped in `Scribbles.v` and `Edits.v` (C105, C106);
  other mutation performed by user callables is not modelled.
* **Classes** are referenced by number through an environment `list classdef`.
* Python features not modelled: bool-as-int, warnings (all `warnings.warn` calls are
  no-ops, except in `Warn.v`, C99), deep copies (values are immutable except in `Heap.v`, C93), `__repr__`/`__str__` (except of fields, structs and the values listed in C91 and C97), the recursion limit,
  memory exhaustion, streams other than `io.BytesIO` (except in `Devices.v`, C94), attribute names clashing with Struct methods,
  subclasses of Field overriding methods (except in `Custom.v`, C95).
  AttributeError and TypeError on values of the wrong Python type are told apart, except that
  a Struct given to a variable-length integer is not compared with 0 first, and the text of
  an object other than a string or integer given to a canonical-text UUID field is not modelled
  (taken not to fit).  An array whose `count` names a field holding a float is treated like one
  naming any other non-integer (refused), although Python would compare the float with the length (modelled in `FloatCounts.v`, C103).
  A NaN differs from itself; Python's list and dict comparisons first test identity (modelled in `Identity.v`, C110).
  The local time zone is taken to be UTC, except in `LocalTime.v`, which models the two conversions of naive datetimes
  (CPython's `local_to_seconds` and its fold detection, without leap seconds) for any zone (C88); CPython looks a day back for a change of the local clock, so naive datetimes
  on 0001-01-01 raise ValueError.  A timestamp outside the years 1 to 9999 is a ValueError, an
  OSError if its year does not fit a C int, an OverflowError if it does not fit a 64-bit time_t
  (CPython on 64-bit Linux; elsewhere the limits differ).
  `(-1).to_bytes(0, signed=True)`, which CPython up to 3.12 accepts, is an OverflowError here.

## 3. File layout (rocq/theories)

Model (every definition cites the lines it mirrors):

* `Base.v` – results, exceptions' order of evaluation, dictionaries.
* `Custom.v` – fields defined by users: arbitrary `_do_dump`, `_do_load`, `_size_for_value` and `_add_padding`.
* `Writes.v` – dumping as a sequence of `write` calls, on streams whose `write` raises or writes less than it is given.
* `Introspect.v` – `repr` of structs, `Field.required`, `__objclass__`.
* `Moods.v` – dumping when compute, present and factory functions answer differently each time.
* `Warn.v` – dumping where warnings are errors.
* `Hosts.v` – the byte order of number fields that give none.
* `Readers.v` – loading when `present` functions, halt checks and load deciders move the stream.
* `FloatCounts.v` – arrays whose count is a float.
* `Encodings.v` – String and StringZ with any encoding; East Asian encodings; UTF-7.
* `Scribbles.v` – loading when callables write into the dictionary of loaded fields.
* `Edits.v` – dumping when callables write into the dictionary of fields being dumped.
* `Constructors.v` – loading and dumping when struct classes have constructors of their own.
* `Json.v` – what `json.loads(json.dumps(v))` gives (a model of the standard library's json with its defaults, checked by hand against CPython 3.11, not of code in /repo); used for claims about `to_dict` only.
* `MoodLoads.v` – loading when `present` functions change their minds (continues `Moods.v`).
* `Identity.v` – comparing the contents of structs when floats and generators have identity.
* `Devices.v` – the calls the loaders make on a stream, and streams with short reads or without `tell`/`seek`.
* `Heap.v` – mutable objects with identity: which of them `to_dict`, the constructor and attributes share.
* `Annotations.v` – annotations as written, decorators for validators.
* `Messages.v` – messages of the exceptions, `str` and `repr` of fields (ASCII).
* `PyInt.v` – `int.bit_length`, `int.to_bytes`, `int.from_bytes`, byte lists.
* `Stream.v` – streams and `helpers.py`.
* `Varints.v` – `varints.py`.
* `Codecs.v` – ASCII, Latin-1, UTF-8, UTF-16/32 LE/BE, any single-byte code page, and the
  encodings with a byte order mark (utf-8-sig, utf-16, utf-32): encoders, decoders and incremental
  decoders (standard-library behaviour used by `stringlike.py`).  Other encodings
  are in `Encodings.v`: any at all, given by their functions, and UTF-7 in full.
* `Uuid.v` – `uuid.UUID` byte/hex forms and `UUIDFormat`.
* `Floats.v` – `struct.pack/unpack` of e/f/d on bit patterns with integer rounding (half to
  even), int/float conversion, datetime/timestamp arithmetic.
* `Values.v` – values, exceptions, queries, fields, classes.
* `FieldModel.v` – fields/base.py, stringlike.py, numeric.py.
* `StructModel.v` – containers.py and structures.py.
* `Proxy.v` – the mapping proxies, with the mixin methods of `collections.abc`.
* `Decl.v` – field constructors, `bind_to_container`, `StructMetadata.from_class`, pep526.
* `LocalTime.v` – naive timestamps in any time zone; `Version.v` – `VersionInfo`.
* `ConformStdlib.v` – about 5000 answers of CPython 3.11's own library (codecs, `int`, `uuid`,
  `struct`, `datetime`), written by `tools/gen_stdlib_vectors.py`; the model of that library must
  reproduce them.  A test of the model, not a proof; it found four mistakes, now corrected.

Specification vocabulary used in theorem statements, written without the model's loops:
`VarintSpec.v`, `Spec.v`, `SpecField.v`, `SpecAccess.v`, `SpecNum.v`, `SpecEq.v`,
`SpecRound.v`, `SpecDecl.v`, `SpecLoad.v`, `SpecLocal.v`, `SpecCanon.v`, `SpecEnds.v`, `SpecDump.v`, `SpecWire.v`, `SpecBom.v`,
`SpecHalt.v`, `SpecAsk.v`, `SpecInherit.v`, `SpecCut.v`, `SpecPatch.v`, `SpecOld.v`, `SpecFormat.v`, and the definitions in
`ArgsProofs.v`, `FloatTies.v`, `UuidText.v`, `WrongType.v`, `ContainerTypes.v` and `DetailProofs.v` (constructor
arguments, integers as floats, UUID text, wrong types, annotations).

Lemmas: `*Proofs.v`, `*More.v`, `DefaultSize.v`; concrete classes for examples and
refutations: `Samples.v`, `*Witness.v`.

`Properties*.v` – only theorems, closed by `exact` (refutations: by naming the witness), each
followed by `Print Assumptions`, and
non-vacuity `Example`s.

`Conform*.v` – the project's own test suite (/repo/tests) transcribed as `Example`s of the
same names: 231 tests, from the varint tables to the BMP, CPIO, FAT12 and WAV examples, are
checked by computation in the model.  They are tests of the model, not properties; each file
says which tests it leaves out and why (mocks, warnings and messages, user-defined field
classes, arguments the model's types exclude).

`tools/gen_manifest.py` derives MANIFEST.json from the theorem names; `tools/mutate.py`
applies an edit to a scratch copy of the model, rebuilds and reports the theorems that
fail (results in `seeded/LOG.jsonl`).

## 4. Plan per property

| id | modelled by | proof idea |
|----|-------------|------------|
| C01–C05 | `Varints.v` encoders/decoders | base-128 digit lists; encoders equal a digit spec; decoders fold digits; induction on the digit list |
| C06–C08 | `PyInt.v`, Integer field | to_bytes/from_bytes digit lemmas base 256, two's complement via mod 2^8n |
| C09 | `read_int`, `_read_exact_size`, UUID4 load | case analysis on stream length |
| C10 | VLI field | unfolding + witness for load |
| C11–C13 | Bytes/String fields | get_expected_size cases |
| C14 | StringZ + incremental decoders | induction on the text; per-codec "decode one char from its bytes" lemma |
| C15 | StringZ with default | bound on bytes read; refutation |
| C16 | `Uuid.v` | base-256 / base-16 digits, permutation of groups |
| C17, C18 | `field_to_stream` | case analysis, any `do_dump` |
| C19, C20 | null handling | peek/seek lemmas |
| C21, C22, C23 | const / from_bytes | case analysis, witnesses |
| C24, C25, C26 | validators, present, compute_value_for_dump | unfolding of loops by list induction |
| C27 | whole model | leaf round-trips, then presence and null, then struct level by induction on components; nesting by mutual induction on the specification of suitable values |
| C28, C29 | struct_to_stream / struct_from_stream | induction on components against a declarative relation |
| C30–C33 | partial_load, get_field, partial_dump | induction on components |
| C34 | get_size, len | sum over components |
| C35 | getitem/setitem/delitem | invariant over operation histories against an abstract map |
| C36 | to_dict, recursive_to_dicts | key-set induction; "no VStruct inside" predicate |
| C37, C38, C48 | `Decl.v` | induction over class body / inheritance chain |
| C39–C41 | Array | induction on the list / fuel; divergence as `forall n, = OOF` |
| C42, C43 | `Stream.v`, all loaders | fuel induction: data unchanged, position monotone |
| C44–C46 | Union, discard, context | witnesses + general statement of what the code does |
| C47 | `__eq__` | equivalence proofs on dict-normal values |
| C49 | `_size_for_value` | per kind |
| C50–C52 | `Floats.v` | integer rounding lemmas, rational distance |
| C53–C56, C60 | `Decl.v` | induction over class body / annotations; unfolding |
| C57 | whole load/dump | from the round trip (C27): the load of the longer stream is the same |
| C58–C59 | whole load path (`SpecLoad.v`, `LoadProofs.v`, `LoadFinish.v`) | induction on fuel (exceptions); rank of the class, then structure of the field, then bytes or elements left (termination) |
| C61 | whole load path (`ReportProofs.v`) | first failing field of a struct, then induction on fuel as for C58 |
| C62 | whole load path (`SpecLocal.v`, `LocalProofs.v`) | self-delimiting loaders are closed under sequencing; induction on fuel and fields |
| C63 | whole load and dump path (`SpecCanon.v`, `CanonLeaf.v`, `CanonProofs.v`) | every canonical field writes back what it consumed, given the dictionary of the loaded fields; induction on fuel and fields |
| C64 | `to_dict`, constructor (`RebuildProofs.v`) | the dictionary is a fixed point of to_dict: pointwise over the components |
| C65 | `Proxy.v` | case analysis on what reading gives; induction on the items (clear, update) |
| C66 | `Varints.v` | value of the encoding modulo 128 |
| C67 | `Floats.v` | rounding of rationals, parity of the magnitude |
| C68 | `Uuid.v` | grammar of the text against the parser, both directions |
| C69 | `FieldModel.v` | case analysis on kind and value |
| C70 | `StructModel.v` | induction on the components |
| C71 | `Decl.v` | table of field classes; membership through the loop |
| C72 | `Floats.v` | absolute rounding errors of the four float operations, summed |
| C73 | `StructModel.v` | eventually constant answers; nested induction on the rank of classes, the depth of fields and the structure of values |
| C74 | `StructModel.v`, `FieldModel.v` | induction on fuel over values of the right type; to_dict on complete instances; witnesses |
| C75 | `StructModel.v`, `FieldModel.v` | mutual induction over regular data; each leaf an equivalence; uniqueness; loader through C27 |
| C76 | `StructModel.v` | what is compared on each side: C27's loaded data against the set values, which to_dict keeps; C47 |
| C77–C78 | `Codecs.v`, `FieldModel.v` (`SpecBom.v`, `BomProofs.v`) | one character or mark decided byte by byte, then induction on the text |
| C79 | `StructModel.v` (`SpecHalt.v`, `HaltProofs.v`) | induction on the elements read, both ways |
| C80 | `StructModel.v` (`SpecAsk.v`, `AskProofs.v`) | fuel-free rules for reading fields, both ways, by mutual induction |
| C81 | `Decl.v`, `StructModel.v` (`SpecInherit.v`, `InheritProofs.v`) | two classes side by side; congruence of callables and dumps |
| C82 | `StructModel.v`, `FieldModel.v` (`SpecCut.v`, `CutProofs.v`) | every loader that succeeds on some bytes reports the end of the data on a proper prefix of them |
| C83 | `StructModel.v`, `FieldModel.v` (`SpecPatch.v`, `PatchProofs.v`) | reading, to_dict and dumping of independent fields see only the values of independent fields |
| C84 | `StructModel.v` (`SpecOld.v`, `OldProofs.v`) | induction on the field that needs data; C30, C81 |
| C85 | `ConformFull.v`, `Decl.v`, `StructModel.v` (`SpecFormat.v`, `Format*.v`) | the classes computed by the declaration model, one field after another; C06, C11, C14, C50 |
| C86 | `StructModel.v`, `FieldModel.v` (`NestedProofs.v`, `NestedWitness.v`) | unfolding, `to_dict` specification of C31; C64 for the declared class |
| C87 | `StructModel.v`, `FieldModel.v` (`SettleLeaf.v`, `SettleProofs.v`, `SettleWitness.v`) | induction on fields, components and fuel as in C63, with "the loaded value's own form" in place of the bytes consumed; text decoded by a codec can be encoded again |
| C88 | `LocalTime.v` (`ZoneProofs.v`, `ZoneWitness.v`) | case analysis on the side of the change each probe of CPython's algorithm falls on (linear arithmetic), reduction to the UTC model |
| C89 | `StructModel.v` (`StageProofs.v`, `StageWitness.v`) | induction on the fields with the field-level round trip of C27, C33 and C30 |
| C90 | `Version.v` (`SpecVersion.v`, `VersionProofs.v`) | induction over the text: partition, split and the digits |
| C91 | `Messages.v` (`SpecMessages.v`, `MessageProofs.v`) | string literals and numerals are self-delimiting, hence messages determine what they are about; insertion sort |
| C92 | `Annotations.v` (`AnnotationProofs.v`) | filtering the arguments of a union; induction over the stack of decorators |
| C93 | `Heap.v` (`SpecHeap.v`, `HeapProofs.v`) | the heap only grows; everything reachable from the result is new; values depend on reachable objects only |
| C94 | `Devices.v` (`SpecDevices.v`, `DeviceProofs.v`) | loaders as interaction trees of stream calls; equal to the loaders of the other files on BytesIO; induction over the trees for any limits of the reads |
| C95 | `Custom.v` (`SpecCustom.v`, `CustomProofs.v`) | the field methods as arbitrary functions; case analysis of to_stream/from_stream; inductions over fields and elements; the built-in fields as instances |
| C96 | `Writes.v` (`SpecWrites.v`, `WriteProofs.v`) | dumping as a program of `write` calls; induction over the program for any stream; equality with the dumpers on reliable streams |
| C97 | `Introspect.v` (`SpecIntrospect.v`, `IntrospectProofs.v`) | grammar of Python literals, unambiguous before a comma or closing bracket, by mutual induction; induction on the class statements |
| C98 | `Moods.v` (`SpecMoods.v`, `MoodProofs.v`, `MoodWitness.v`) | dumping with a clock counting calls; equal to the model without if nothing changes; one dictionary by induction on the fields |
| C99 | `Warn.v` (`SpecWarn.v`, `WarnProofs.v`, `WarnWitness.v`) | dumping with warnings raised; simulation relation "same or warned" carried through all dumpers; callables that raise nothing loud by induction on fuel |
| C100 | `Moods.v` (`SpecCosts.v`, `CostProofs.v`) | the clock of `Moods.v` counts evaluations; a chain of computed fields by induction |
| C101 | `Hosts.v` (`SpecHosts.v`, `HostProofs.v`, `HostWitness.v`) | the same declarations on two hosts; one byte has no order; all dumpers, loaders and `==` agree by induction on fuel |
| C102 | `Readers.v` (`SpecReaders.v`, `ReaderProofs.v`, `ReaderWitness.v`) | loading with callables that leave the stream anywhere; a preorder on streams that contains moving forward is carried through all loaders; endless loop by induction on fuel |
| C103 | `FloatCounts.v` (`SpecFloatCounts.v`, `FloatCountProofs.v`, `FloatCountWitness.v`) | comparisons of integers and doubles related to rational numbers; loops by induction on fuel and elements |
| C104 | `Encodings.v` (`SpecEncodings.v`, `EncodingProofs.v`) | the loop of StringZ related to the pieces the decoder gives out, by induction on the data; UTF-7 by an invariant relating the bits the encoder and the decoder hold |
| C105 | `Scribbles.v` (`SpecScribbles.v`, `ScribbleProofs.v`) | loading with the dictionary threaded through; refinement of the usual loading by induction on the fuel; an invariant on what the dictionary becomes |
| C106 | `Edits.v` (`SpecEdits.v`, `EditProofs.v`) | dumping with the dictionary threaded through; refinement of the usual dumping by induction on the fuel; an invariant on what the dictionary becomes |
| C107 | `Constructors.v` (`SpecConstructors.v`, `ConstructorProofs.v`) | the four places that construct instances call any function of the keyword arguments; refinement of the usual loading and dumping by induction on the fuel; which keys reach the constructor |
| C108 | `Json.v` (`SpecJson.v`, `JsonProofs.v`) | json.loads(json.dumps(v)) on values; invariant `json_ready` of everything loading stores, by induction on the fuel; `to_dict` turns it into `json_data`; rebuilding as in C64 |
| C109 | `MoodLoads.v` (`SpecMoodLoads.v`, `MoodLoadProofs.v`) | loading with a clock that counts calls; refinement to loading with the field list as it is at each turn (induction on the fields); all values are set, so validation calls nothing |
| C110 | `Identity.v` (`SpecIdentity.v`, `IdentityProofs.v`) | comparison of converted contents whose floats and generators have addresses; decides an inductive relation (induction on the contents), which is an equivalence; agrees with `py_eq` if no NaN or generator is shared |
| C111 | `Moods.v`, `MoodLoads.v` (`SpecCalm.v`, `CalmProofs.v`) | where all fields are set or have plain defaults, timed computations have the result of the pure ones (induction on fuel and fields); the dump of the settled dictionary is that of the pure model, so C27's round trip applies |
| C112 | (`SpecRecords.v`, `RecordProofs.v`) | induction on the structs in the file, with C27's round trip between arbitrary bytes |

Properties whose documented contract the code violates are stated in the form "the code
does exactly this", with a `…_refuted` theorem giving the counterexample to the contract.

## 5. Trusted base

* Coq 8.16.1 kernel (and `vm_compute` for examples/refutation witnesses).
* Axioms: `Print Assumptions` under each theorem in `Properties*.v`; the aim is
  "Closed under the global context" everywhere, and every theorem meets it.  (A scan of the
  whole library context also lists the abstract module signature
  `Coq.ssr.ssrunder.Under_rel` of the standard library's ssreflect support, which is loaded
  by a standard-library import; no theorem depends on it.)
* The reading of the Python code: the model is hand-written from the cited lines; the
  behaviour of CPython builtins (`int.to_bytes`, codecs, `uuid`, `struct`, `io.BytesIO`,
  `dict`, `ChainMap`) is modelled from their documentation.  As a check of this reading, the
  model passes the project's own tests (`Conform*.v`); no adjustment of the model was needed.

## 6. Findings

(see the end of this file; extended as the model grows)

1. `Struct.from_bytes(exact=True)` accepts exactly one trailing byte (structures.py:554).
2. `encode_integer_leb128` is not minimal on -2^(7k-1) (varints.py:219).
3. `VariableLengthInteger.max_bytes` is not enforced when loading (numeric.py:250-254).
4. A default on an unsized `StringZ`/`Bytes` limits/fixes the number of bytes *loaded*
   (base.py:628-635 via stringlike.py:164), and makes `Struct.get_size()` report a fixed size.
5. A truncated `StringZ` raises DeserializationError rather than UnexpectedEOFError, so
   `partial_load` does not stop gracefully (stringlike.py:178).  A padded sized StringZ
   does not consume its padding on load.
6. `get_field` at a fixed offset passes an empty `loaded_fields` (structures.py:667); offsets
   ignore `present`.
7. `factory=` alone is ignored by `compute_value_for_dump` (base.py:443).
8. A value set on a `discard` field is ignored on dump (structures.py:380,437-440).
9. `const` is not enforced on dump (base.py:440-442).
10. `present` is evaluated with context None in `to_dict` (structures.py:431,456).
11. Negative size/count references: Bytes reads to EOF; arrays load as empty.
12. Array load diverges for never-present / zero-byte components.
13. `Union` load bypasses the chosen field's const/validators/null handling (containers.py:495).
14. `len(struct)` counts absent fields.
15. `partial_dump` passes no all_fields and ignores computed values and `present`.
16. Null representation collisions.
17. PEP 526 inheritance (pep526.py:224-257).
18. `Array/Nested/Union/Integer(const=...)` without a size raise AttributeError at
    construction (base.py:320 -> 564 -> 331: `_size` is read before it is assigned).
19. `struct == x` calls `list(struct)`, which consults `len(struct)` as a size hint; comparing
    a struct with an unset unsized field raises MissingRequiredValueError.
20. Structs of different classes with the same set values compare equal.
21. A nullable count field holding None lets an Array dump any number of items, while loading
    it raises UndefinedSizeError.  A generator with a negative count is dumped whole.
22. `partial_load` drops discard fields at once, so later references to them fail.
23. `get_field` after a sized StringZ reads at the declared offset, `from_stream` continues
    after the NUL.
24. `partial_dump` with an unknown `last_field` silently dumps everything.
25. `get_field` of a discard field at a variable offset returns the default or raises.
26. A subclass's offsets start at `base.get_size()`, which may rest on a default (C37).
27. Timestamps with ms/us/ns resolution lose a unit through float truncation (C50).
28. Dataclass structs have no validator-table entries (C54).
29. Meta's `endian` does not reach Float, Timestamp or the components of an Array; passing
    `endian=None` explicitly suppresses it (C38).
30. The dataclass decorator ignores defaults and Optional for struct-class and instance
    annotations.
31. `Array(UInt8(name="x"))` without the same name raises ConfigurationError (C55).
32. A nullable field with a const accepts the null representation on load.
33. Malformed text, textual UUIDs and out-of-range timestamps raise UnicodeDecodeError,
    UnicodeError, ValueError, OverflowError or OSError out of `from_stream`, not DeserializationError (C58).
34. UUID4 reports the offset after the truncated data as the offset of an UnexpectedEOFError;
    every other field reports the offset before the read (stringlike.py:250-253; C09, C61).
35. The `field` of a DeserializationError is overwritten at every level, so an error inside a
    nested struct names only the outermost field (base.py:714-716; C61).
36. `Nested` declares the size of its struct with all fields (`struct_class.get_size()`,
    containers.py:351), optional ones included. If one of them is absent, the nested struct
    loads but raises ValueSizeError on dump (base.py:826-845; C63).
37. `validate_contents` (structures.py:352-360) passes the not-present value of absent optional
    fields to the validators of the field, on load and on dump.
38. `Cls(**x.to_dict())` loses the values of discarded fields and what depends on them (C64).
39. `StructMappingProxy.get(name, default)`, `name in proxy` and `setdefault` raise
    MissingRequiredValueError for unset required fields; `setdefault` never stores anything (C65).
40. `len(proxy)` is the size in bytes; the `__eq__` generated by `@dataclass` replaces that of
    `Mapping`, so a proxy is never equal to a dict (structures.py:832, 848; C65).
41. An integer given to a Float16 or Float32 field is rounded twice: 2^60 + 2^36 + 1 is stored as
    2^60 although 2^60 + 2^37 is nearer (C67).
42. UUID fields stored as text accept dashes anywhere, signs, `0x`, underscores and blanks; the
    canonical one dumps any 36-character text, which may then not load (C68).
43. VariableLengthInteger fields dump 0.0 as 0, and a ULEB128 one dumps NaN as nothing (C69).
44. `==` raises AttributeError if an unsized String field holds something that is no string,
    because `list(self)` calls `len(self)` (structures.py:791; C69).
45. Nanosecond timestamps after 2038-01-19 may come back a microsecond off (C72).
46. `to_dict()` raises KeyError instead of the documented MissingRequiredValueError when a computed
    field declared before an unset required field reads it (structures.py:428-434); `to_bytes()` of a
    struct containing such an instance raises it too (C74).
47. `partial_dump` passes NOT_PRESENT to the field: AttributeError after loading an absent
    optional field (structures.py:700-714; C74).
48. An instance relying on a default or computed value is not equal to `T.from_bytes(x.to_bytes())`: `__eq__`
    compares only what is explicitly set (structures.py:777-797; C76).
49. `x == x` raises FieldReferenceError for a struct with an array counted by another field: `list(self)` calls
    `__len__`, which dumps the array alone (structures.py:761-793; C76).
50. StringZ(encoding="utf-16") or "utf-32" raises UnicodeError for data without a byte order mark, which String
    reads (stringlike.py:128, 169; C77).
51. String(encoding="utf-16", size=n) loads n bytes without a mark, but dumping the instance raises ValueSizeError
    (C77).
52. A halt check that takes the sentinel off the list (which containers.py:171-237 allows) loses it: dumping what was
    loaded writes no sentinel, and the result cannot be loaded (C79).
53. A null_value the field cannot write for another reason than its size (say text its encoding lacks) makes every load
    raise that exception, null or not (base.py:686-699; C19).
54. An annotation `UInt8 | None` is, up to Python 3.13, not recognised as Optional (its origin is types.UnionType,
    not typing.Union), so the name is silently ignored like any other annotation that stands for no field
    (pep526.py:117, 170-172; C48).
55. An instance of another class (for example a subclass) given to a Nested field is dumped with its own class by the field alone (containers.py:352-365), but inside a struct it is first turned into a dictionary by to_dict() (structures.py:375-385, 442) and rebuilt with the declared class: the extra fields of a subclass raise UnexpectedValueError, and fields of the same name are silently written in the declared class's encoding (C86).
56. A naive datetime on the first day of year 1 (datetime.min, say) can be neither dumped nor loaded by a Timestamp: Python's conversion raises ValueError, which the field does not turn into an error of the library (numeric.py:431-435, 460; C50).
57. Rewriting a timestamp stored in milli- or microseconds may change it, and again on every rewrite: numeric.py:459-473 truncates `timestamp * units`, a float, so 3919 microseconds are written as 3918, then 3917 (C87). A nullable VariableLengthInteger loads a non-minimal form of its null_value as a number and writes it as the null value (numeric.py:256-289, C87).
58. A naive datetime that the local clock skips is loaded an hour later than it was dumped, and naive timestamps dumped in one time zone are loaded with another reading in another zone (numeric.py:431-435, 459; C88).
59. Dumping an array whose `count` field holds something that is not a number raises TypeError: the comparison with the count fails, and where it does not, the constructor of ArraySizeError makes the comparison again (errors.py:448-462, containers.py; C40).
60. `VersionInfo.from_string` raises ValueError for PEP 440 pre-release versions ("0.12.0rc1"); since it is called with the package's version on import, releasing one would make the package unimportable.  ".dev1" and ".post1" are dropped silently (__init__.py:23-29; C90).
61. `Struct.from_bytes(exact=True)` reports one byte more than was read: "Read {here + 1} bytes" (structures.py:555-556; C91).
62. A struct with two struct bases is reported as "The struct 'StructMetadata' was misconfigured." whichever struct it is: `cls` is the metadata class there (structures.py:122; C91).
63. The message about a field that calls itself ends in a literal "(Value: {value!r})": the last of the adjacent string literals lacks its `f` (base.py:650; C91).
64. Stacking decorators, `@validates("a")` above `@validates("b")`, validates only "b": `functools.wraps` (decorators.py:36) copies the attributes `func` and `field_names` of the inner wrapper over those just set.  `@validates(...)` above `@validates_struct` is a struct validator (C92).
65. `Optional[Annotated[int, UInt8]]` is silently ignored, and `Annotated[Optional[int], UInt8]` is a field that is not nullable (pep526.py:71-73, 117-135; C92).
66. A mutable default is not copied: `fields.Array(fields.UInt8(), default=[])` gives the same list to every instance that does not set the field, and `x.items.append(1)` changes them all (base.py:447, 1015-1020).  A list given as `const` can be changed in the same way (C93).
67. `to_dict()` copies lists and dictionaries but returns a `bytearray` as it is, so the result changes with the struct (structures.py:303; C93).
68. `read(n)` may return less than `n` bytes without the data having ended (raw files, pipes, sockets).  `_read_exact_size` then raises UnexpectedEOFError, and `peek_bytes` compares the part it got with the null representation, so a nullable field is silently loaded with another value (base.py:989-996, helpers.py:111-126; C94).
69. Only null-terminated strings and UUIDs can be loaded from a stream that cannot tell its position: the other fields call `stream.tell()` first although the offset is needed for the error message only (base.py:989, helpers.py:47; C94).
70. `to_stream` does not check the length of what an overridden `_add_padding` returns, nor `from_stream` how much `_do_load` of a field with a fixed size reads, so a mistake in a user-defined field shifts all fields after it silently (base.py:845-850, 709-714; C95).
71. `to_stream` ignores what `write` returns, so on unbuffered files and other raw streams, whose `write` may write only part of the data, bytes are lost without an error (base.py:827, 850; C96).
72. Declaring a subclass of a Struct changes `__objclass__` of all inherited fields to the subclass, also as seen from the parent (structures.py:810-813; C97).
73. `Field.required` is True for computed fields and False for fields with only a factory, although the former need no value and the latter do (base.py:538-543, 443; C97).
74. Computed values are computed again after `validate_contents`; if the function is not deterministic (time, random numbers), `@validates` methods accept one value and another is written (structures.py:349-360, 428-470; C98).
75. The warning in `_to_dict_whatever_possible` is excluded from test coverage (`pragma: nocover`), but a `present` function that raises a ValidationError while another field is not yet computed reaches it; such a struct can be dumped, unless warnings are errors (structures.py:460-470; C99).
76. Computed values are not remembered while a struct is validated or converted, so the number of calls of compute functions can be exponential in the number of fields (base.py:1015-1020, structures.py:349-360; C100).
77. Numbers without `endian` take the byte order of the host, so data written on one host is read as something else on another; a default in the class helps integers only (numeric.py:81, 185, 418; C101).
78. A `present` function or load decider that reads from the stream shifts everything after it, and a halt check that seeks back makes loading endless; only the documentation of halt checks says that the stream should be put back (base.py:681, containers.py:203-205, 318, 493; C102).
79. A `count` that names a field holding a float is used as it is: a list of three values cannot be dumped with the count 2.5, a generator of three or more can, and loading reads three; with a NaN loading never stops before the data ends (containers.py:168, 225-231, 261-298; C103).
80. A StringZ with `encoding="utf-7"` does not notice its own terminator after a character that UTF-7 writes in base 64: the decoder gives out the character and the NUL together, and `char == "\0"` (stringlike.py:174) compares the whole piece. `"é"` is dumped, but loading it raises DeserializationError or takes what follows as part of the text (C104).
81. A `present` function, halt check or load decider that writes into `loaded_fields` changes what is loaded: `results.setdefault` (structures.py:508) keeps an entry written while the field itself is being read and drops what was read, and an array whose elements change the count stops early or late (containers.py:225; C105).
82. `to_stream` passes its working dictionary to compute functions, `present` functions and dump deciders; what they write is dumped instead of the instance's values. Discarded fields are missing from it, so that even `setdefault` changes what is dumped for them (structures.py:380-385; C106).
83. `init_kwargs` is meant for subclasses whose constructors take further arguments (structures.py:489-493), but Nested and Union fields, `partial_load` and `get_field` construct instances without them (containers.py:364, 371, 482, 497, structures.py:624), so such classes can only be loaded by themselves. Even dumping fails with TypeError as soon as an instance is a field of another struct, because `to_stream` converts it to a dictionary first and constructs it again (structures.py:380, containers.py:364; C107).
84. The change log's "the output of Struct.to_dict() is JSON-serializable if all fields are defined" (docs/source/CHANGELOG.rst:1352-1354) does not hold for fields with bytes, UUIDs or timestamps, nor for conditional fields: NOT_PRESENT is put into the dictionary as it is. A NaN other than the usual one changes its bytes on the way (C108).
85. `Struct.__eq__` depends on object identity: a struct with a NaN is equal to itself, since the two dictionaries contain the same float object, but two structs loaded from the same bytes are not equal (structures.py:788-797; C110).
