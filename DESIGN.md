# Formal model of pyiso8583 in Rocq

## What is modelled

| Module | Models | Source |
|---|---|---|
| `PyBase.v` | Python built-ins used by the library: slices, dicts (insertion ordered), `int`, `str.isnumeric`, `bytes.hex`, `bytes.fromhex`, `binascii.a2b_hex`, `int.to_bytes/from_bytes`, `format`, `repr`, sets of int, exceptions over mutable state | CPython, not /repo |
| `Types.v` | spec dicts, decoded and encoded dicts, `DecodeError`, `EncodeError` with `__init__` and `__reduce__` | decoder.py 1-56, encoder.py 1-39, specs.py 18-91 |
| `Decoder.v` | every function of decoder.py | decoder.py 59-718 |
| `Encoder.v` | every function of encoder.py | encoder.py 42-677 |
| `Tools.v` | every function of tools.py (pretty printer); dict values of any kind, other objects than str, bytes and dict by their len() and repr() | tools.py |
| `CPython311.v` | one concrete interpreter: ascii, latin-1, cp500, utf-8 codecs and Unicode 14 tables; used for shipped-spec theorems and examples | CPython 3.11 |
| `Specs.v` | `default` and `default_ascii`, literally | specs.py 474-2314 |

| `Source.v` | the syntax trees of decoder.py, encoder.py and tools.py, written by `source/gen.py` from their text | all functions of the three files |
| `PyAst.v`, `PyFormat.v`, `PySem.v` | syntax and a definitional interpreter for the part of Python these files use: a heap of dicts, sets, lists, bytearrays and instances, references, local variables, exceptions | the Python language, not /repo |

The interpreter is a parameter `E : pyenv` (codec registry, Unicode tables, int
digit limit) of every function and theorem. Theorems name the facts they need about it.

Mutation is explicit: a call is a function from the mutable state (the dicts)
to an outcome and a state, and an exception keeps the state reached.

## Trusted base

* Coq's kernel (8.16.1) and the standard library.
* Axioms: `Print Assumptions` under each property theorem says "Closed under the
  global context"; none rests on an axiom. A whole-library check (coqchk, vcheck)
  also lists seven constants of the standard library's `Coq.ssr.ssrunder`
  (`Under_rel.*`), which come with the standard library modules imported and are used nowhere here.
* For decoder.py, encoder.py, tools.py and specs.py (C60 to C71): that `PySem.v` describes Python and that `source/gen.py`
  (130 lines, Python's own `ast` parser) writes down what it read. The transcription in
  `Decoder.v`, `Encoder.v`, `Tools.v` and `Specs.v` is then no longer trusted: these claims prove that running the syntax
  trees of decode(), encode(), pp() and of the statements of specs.py gives what the transcriptions give. Simplified in `Source.v`: docstrings,
  annotations, `from None` and module-level statements are left out, except the default arguments of pp() and the
  table of printers. A spec is a dict of dicts on the heap,
  which may share entries or be any mapping with the same items, as long as the dict given to encode() is not one of
  them (`spec_rep`, `spec_apart`). Simplified in `PySem.v`: the order of a set is any permutation; a generator runs
  when it is called, on a heap of its own, which is the same as running later for those with immutable arguments
  and results that raise nothing and call no function of the module (others are `Stuck`); a stream is an object
  that collects the text written to it (write() never fails).
  Operations that the library does not use are errors of their own kind (`Stuck`), which the claims show not to
  occur: among them unknown names, changing a dict or set while iterating over it, a generator used twice, an unbound
  variable inside a comprehension, unexpected keywords or numbers of arguments.
  str.format is `PyFormat.v`: templates with fields, nested fields, fill, alignment, zero padding, width, types s and d.
  `source/difftest.py` compares `PySem.v` with CPython 3.11 on random programs of the subset (none of them from /repo):
  on about 9,000 of them, half with operations misused on purpose, it gave CPython's answer or `Stuck` every
  time. `source/formattest.py` does so for `PyFormat.v` (4,000 templates, no difference). Earlier rounds found the cases just listed, where `PySem.v` used to give an answer of its own.
* For threads (C68 to C71): that CPython, which switches threads between instructions of its own machine, does nothing that
  `Threads.v` cannot do. `Threads.v` runs the same syntax trees as a tree of single reads, writes and allocations of
  whole objects, and any other thread may run between two of them; an instruction of CPython's machine does one or more
  of these. That it is the same language as that of `PySem.v` is not trusted: C68 proves that a thread ends as the same
  call alone in `PySem.v`. Threads own what they may change (dict, stream, sys.stdout, bytearray); what they share
  is a specification, a dict of dicts of immutable values. Generators run when called, as in `PySem.v`.
  C69 lets the threads share anything. A call whose arguments make it leave the subset of Python modelled (`Stuck`) is
  followed up to there. Writing to a stream is a read and a write of the whole text, so threads printing to the same
  stream may lose each other's text here although CPython's own streams write at once.
  write() never fails here; a stream of the caller's own that raises, or that changes other objects, is not modelled.
* Elsewhere (built-ins): that the Gallina text is a faithful transcription of the Python text. Every
  definition cites its lines. The built-in models were compared with CPython
  3.11's own built-ins on 32,700 generated cases (slices, int(), fromhex,
  a2b_hex, repr, format, codecs); /repo itself was never run. All 60 tests in
  /repo/tests (292 parametrised cases, 1775 assertions), translated from their
  text, hold of the model, and so do the 47 outputs shown in the documentation
  except one that is stale (see Findings): `RepoTests.v`.

## Not modelled

* Spec property values of undocumented types (a float `max_len`, a
  non-int `len_type`, non-str pads). Absent properties and negative `len_type`s *are* modelled.
* `str` subclasses and dict subclasses with overridden methods.
* Limits of the machine: memory, and sizes of 10^640 and more (sizes of byte strings
  are taken to be printable; a `len_type` can be any width). CPython's int-to-str digit
  limit inside error messages *is* modelled, for the numbers of the spec and of the input.
* The text of TypeErrors raised by CPython itself.
* `__init__.py` re-exports, packaging, docs.
* Sharing, in the transcriptions: the library stores in the dicts only immutable values, so passing
  dicts by reference is modelled by returning the final state. `PySem.v` has references, and
  C60, C61 and C62 say which objects are new, shared and unchanged.

## Specifications

Properties are stated against these files, which use the data types of Types.v and
a few text operations of PyBase.v (`zstr`, `fmt0d`, `py_upper`, `repr_*`, which C56 and C57
pin down) but none of the functions of the model.

| File | Says |
|---|---|
| `Numerals.v` | what digits mean: numbers in bytes, hexadecimal spellings, what `int()` reads, without PyBase's own functions |
| `Texts.v` | what str, format, hex, slices, join, padding, codecs and literals are, without PyBase's own functions; C56 proves PyBase agrees |
| `Claims9.v` | printed entries as Python source |
| `Wire.v` | the wire format: segments, bitmaps, length prefixes, pads, when a message decodes to what |
| `WireEncode.v` | which message a dict stands for, and the dict afterwards |
| `DecodeFault.v` | what makes bytes unreadable: cause, message, position, what was read |
| `EncodeFault.v` | what makes a dict unsendable: cause, message, field, what was encoded |
| `DecodeGap.v` | which entries and properties of an incomplete spec decode misses, and when |
| `EncodeEscape.v` | when encode fails otherwise than by EncodeError: cause, exception, caller's dict |
| `Claims5.v` | proper messages of the shipped specs; sizes of parts and messages |
| `Claims6.v` | what a run of decode records; the value of bytes |
| `Claims7.v` | whole bytes spelled in hexadecimal |
| `Claims10.v` | dicts sendable apart from data fields; dropping reported fields; what was read before an error |
| `SemClaims.v` | values and objects that stand for the arguments and results of the models |
| `SessionClaims.v`, `HistoryClaims.v` | calls of the library's text one after the other; whole executions; specifications that print alike |
| `Threads.v` | the interpreter as a tree of accesses to the heap; machines running several such trees |
| `SafeClaims.v` | which changes of the caller's objects a call may make; calls with any arguments |
| `ThreadClaims.v`, `ThreadTasks.v` | what a thread sees of the heap compared with running alone; threads that call the library |
| `Pretty.v` | what pp has to print and when it stops |
| `Claims.v`, `Claims2.v`, `Claims3.v` | vocabulary of the properties (histories of edits, canonical keys and messages, don't-care properties) |

Hypotheses used in the theorems, each shown to hold of concrete cases in `*Samples.v`,
`CodecFacts.v` and `SampleFacts.v`:

| Hypothesis | Meaning |
|---|---|
| `env_ok E` | int() and isnumeric() read plain decimal numbers as such |
| `bitmaps_fit E sp` | the bitmap codec does not turn 16 bytes into more than 16 hex digits |
| `spec_complete sp` | all mandatory properties are there for h, t, p, 1 and 2..192 |
| `reversible_spec`, `faithful_spec` | the codecs invert each other, as ascii, latin-1, cp500 and utf-8 do |
| `str_dict d`, `is_dict d` | str keys and values; keys are distinct |
| `numbers_ok E sp`, `limits_ok E sp` | the numbers of the spec (and those its binary length prefixes can hold; `limits_ok`: its `max_len`s) are not longer than CPython prints, 4300 digits by default |
| `widths_ok sp` | no `len_type` is negative |
| `short_text E` | no codec turns 16 bytes into 2^60 characters |
| `any_order order` | sets are iterated over in some order |
| `canonical_keys E d` | numeric keys are spelled "2", not "02" or "½" |

## Proof files

| Files | Content |
|---|---|
| `BaseFacts`, `NumeralFacts`, `CodecFacts` | built-ins and codecs |
| `DecoderFacts`, `DecodeRun`, `DecodeComplete`, `DecodeTheorems` | decode = `Wire` |
| `Shown` | numbers that can be printed |
| `DecodeFaultFacts`, `DecodeCut` | DecodeError = `DecodeFault`; prefixes and streams |
| `EncoderFacts`, `EncodeRun`, `EncodeWhole`, `EncodeTheorems*` | encode = `WireEncode` |
| `EncodeFaultFacts`, `EncodeFaultWhole` | EncodeError = `EncodeFault` |
| `Roundtrip*`, `Shipped` | encode/decode inverse to each other; the shipped specs |
| `DontCare`, `SpecKeys` | spec rewriting; keys of results |
| `PrettyFacts*`, `PrettyExact` | pp = `Pretty`, also as an equivalence |
| `PrettyUnique`, `PrettyMessages` | the printed text can be read back |
| `TextFacts`, `CodecTexts`, `LiteralFacts` | built-ins = `Texts`; repr() writes literals with one meaning |
| `Lookup`, `EncodeOrder`, `EncodeOrder2` | order of specs and dicts |
| `Extend` | monotonicity of `Wire` and `WireEncode` in the spec |
| `EncodeEscapeFacts`, `EncodeEscapeWhole` | other exceptions of encode = `EncodeEscape` |
| `ShippedLang`, `Size` | what the shipped specs send; sizes of messages |
| `DecodeGapFacts` | KeyErrors of decode = `DecodeGap` |
| `Replace`, `Replace2` | exchange of single segments; encode field by field |
| `Remove` | fields left out |
| `Repair`, `Salvage` | recovering from errors |
| `Corrupt`, `Causal` | other bytes in one field; common beginnings of inputs |
| `FormatFacts` | what the library's templates give |
| `SemFacts`, `SemHeap`, `SemStep` | rules for running the interpreter; what stays as it is in the heap |
| `SemDecode`, `SemDecodeTop`, `SourceDecode` | the text of decoder.py = `Decoder` |
| `SemEncode`, `SemEncodeTop`, `SemEncodeBody`, `SourceEncode` | the text of encoder.py = `Encoder` |
| `SemTools`, `SourceTools`, `SourceShipped`, `SourceErrors` | the text of tools.py and specs.py = `Tools`, `Specs`; exceptions as objects |
| `EncodeMemory`, `SourceSessions`, `SourceHistory`, `PrettySpec` | sizes of what encode leaves; sequences of calls; executions; what pp reads of a spec |
| `ThreadFacts`, `ThreadSim`, `ThreadRun` | `Threads` and `PySem` side by side: primitives, statements, calls |
| `ThreadMachine`, `ThreadLib` | the invariant of all schedules; threads that call the library |
| `SafeCheck`, `SafeSigs` | a checker of writes: types for the variables of a program; the types of the library's variables |
| `SafeFacts`, `SafeLib` | programs the checker accepts write only where they may, at every moment; the machine and the library |
| `SafeStreams`, `StreamOrder` | a stream printed to by one thread only grows; what an interrupted pp() has written |
| `Retry` | calls after interrupted calls |
| `Samples`, `*Samples`, `SampleFacts` | concrete cases |
| `RepoTests` | upstream's tests and documented examples evaluated in the model |
| `Props*` | the property theorems, nothing else |

## Findings about the code

Where the property as first written is false of the code, a theorem `..._refuted`
exhibits the case and the property is proved with the missing hypothesis.

* The shipped specs have no entries 129..192: a message announcing such a field
  makes decode, and a dict holding one makes encode, raise KeyError
  (`C07_default_spec_refuted`, `C08_default_spec_refuted`).
* encode raises KeyError "2" for the key "02", and ValueError for "²" or "½"
  (`C08_*_refuted`; C38 is the exact statement).
* Keys "01" and "065" switch on empty extra bitmaps (`C05_noncanonical_refuted`).
* A lower-case pad or pad digit breaks the round trip (`C01_lower_case_pad_refuted`).
* decode accepts text lengths in any int() syntax, also negative ones, and text
  bitmaps with lower case and whitespace; such messages are re-encoded differently
  (C18, C33, C40).
* With both pads configured decode removes the right pad when the left one does
  not match (C34).
* A negative `len_type` in the spec makes decode raise DecodeError, and makes encode raise
  ValueError for binary and BCD lengths but EncodeError for text ones (C38, C40, C43, C49).
* A number of more than 4300 digits (`max_len`, `len_type`, or one held by a binary length
  prefix of over 1785 bytes) makes the f-string of the error message raise ValueError instead of
  DecodeError or EncodeError (C07, C38, C40, C49).
* An odd number of nibbles is accepted for text fields; re-encoding changes it.
* A failed encode has already removed the keys "1" and "65" (C12, C43).
* pp overruns line_width for text that repr() escapes and for keys of more than three
  characters (`C29_escapes_refuted`, `C29_long_keys_refuted`), and raises KeyError on
  some dicts encode accepts (`C39_noncanonical_key_refuted`). A dict entry whose "len"
  has no len() makes it raise TypeError in the middle of the entry (C26).
* The last example of docs/howto.rst is stale: under `len_enc` "b" the length of 15
  nibbles is the byte 0x0f, not 0x15 (`doc_howto_last` in `RepoTests.v`).

C08 stays `partial`: as first written it is false. C38 is its correct form and is proved.

## Seeded bugs

`seeded/LOG.jsonl` records edits of the model made in a scratch copy. Each run
rebuilds everything; a proof that fails is replaced by an appeal to a scratch axiom, so
that later files still build, and a theorem counts as failed when it depends on
that axiom. Runs w01 to x11 rebuilt only what three theorems of C69 and C70 depend on, y01 to y11 only
`Retry.v`; there a theorem not listed as failed may not have been tried.

## Plan per property

A separate specification file `Wire.v` states the wire format declaratively
(segments, length prefixes, bitmaps, positions of bits) without using the
decoder's or encoder's functions. What digits mean is stated in `Numerals.v`;
other built-ins of PyBase are used where the wire format is defined by them.

| | How it is to be proved |
|---|---|
| C01 | field-level encode/decode correspondence, then C02's completeness half |
| C02 | iff between `decode` and `Wire.message`; each reader step characterised |
| C03, C10 | invariant: bytes recorded so far = bytes consumed so far |
| C04, C11 | invariant on the encoded dict along `encode_body` |
| C05, C36 | testbit characterisation of `make_bitmap`; permutation invariance |
| C06 | from C02's segment list |
| C07 | exception analysis of every step; refuted for the shipped specs |
| C08 | exception analysis; refuted for non-canonical numeric keys, so proved for canonical keys |
| C09 | each step depends only on the bytes it consumes |
| C12 | frame invariant on the caller's dict, all outcomes |
| C13, C14, C19 | encode is a function of the content of the dict |
| C15, C16, C17, C34, C37 | field-level characterisations |
| C18 | decode/encode field correspondence on canonical segments; refuted without |
| C20 | from C01 |
| C21 | compositionality of `encode_body` |
| C22 | simulation between runs with two specs |
| C23 | simulation between runs with two buffers |
| C24, C25 | instantiation of C01 / length lemmas with the shipped specs, checked by computation over the 131 entries |
| C26-C29 | induction over the wrapping recursion; C29 refuted for escapes in str values |
| C30 | by the constructors |
| C31, C35 | from the encode characterisation |
| C32 | iff between `encode` returning and declarative encodability |
| C33 | decoder step lemma on text bitmaps |
| C38 | exception analysis of every step of encode |
| C39 | invariant: keys written are keys looked up in the spec |
| C40 | iff between DecodeError and `DecodeFault`, by the phases of decode |
| C41, C42 | from C02 and C40, unique decodability by induction on the list |
| C43 | iff between EncodeError and `EncodeFault`, by the phases of encode |
| C44 | unique readability: of repr by induction on the text, of a folded value, of an entry, of all entries |
| C45 | C22 for lookups; invariance of `Pretty` and `EncodeFault` under reordering |
| C46 | monotonicity of the wire language in max_len, via C02 and C32; vocabulary in `Claims4` |
| C47 | replacing one segment of a `Wire` message (C02); C32 and the encodability criterion for mixtures |
| C48 | iff between KeyError and `DecodeGap`, by the phases of decode; the shipped specs by computation over their keys |
| C49 | run to escape by the phases of encode; back by exclusiveness of sent, refused and escaping at every key of the plan |
| C50 | C32 with the values, lengths and prefixes of ASCII and hex fields computed |
| C51 | each part of a message (C02) or encoding (C32) is within its bounds; sums over keys without duplicates |
| C52 | other data of the same length at a stage of a message (Corrupt.v: `stage`) is a segment again or a fault (C40) |
| C53 | stages determine the next key (`cursor_fun`) and, with the bytes, the next segment (`stage_det`); a readable segment is no fault (`stage_fault`) |
| C54 | what decode returns is a canonical dict (`decoded_dict`), so C32 and C01 apply to it; entries of the two shipped specs compared pointwise (`pair_of`) and C50 |
| C55 | C47's mixture theorem; the keys of two plans filtered alike (`common_keys`), entries alike by C47 |
| C56 | equivalences between each built-in and its description; canonical numerals unique by length and value |
| C57 | repr() characters are escapes or themselves; a literal ends at its first bare quote, so reading is unique |
| C58 | `sendable_frame` rules out every other exception; the plan is sorted, so the first fault (C43) is the lowest field; dropping it keeps the frame and shortens the dict |
| C59 | the segments before a fault (C40) are those of a message without its bitmaps; their values encode (C18) and the plan of the new dict names the same fields, two sorted lists with the same elements |
| C60 | weakest-precondition rules for the interpreter; function by function, callees first, an invariant on the heap relating the two dicts to the state of the model; loops by induction |
| C61 | as C60; the caller's dict is part of the invariant, each of its items one it had or a text; `until_fail` for the list comprehension that stops at the first key without isnumeric() |
| C62 | as C60; the model only appends to the stream, so its text is what the heap's stream gained |
| C63 | composition of C60, C61 and C62 with C01, C13, C18, C07, C38 and C39; the frame of each call keeps the objects of the others |
| C64 | the trees of specs.py are displays of literals; a table of rows evaluated by induction over its length; C63 |
| C65 | C60 and C61 with C10 and C11; the rules of C60 for attributes, run over `__init__` and `__reduce__` |
| C66 | induction over executions: each call leaves the dict (but for its bitmaps) and the spec, by C60 to C62 and C12; C14 and C23 at the end |
| C67 | both runs side by side; C62 for the text |
| C68 | simulation of the tree interpreter by `PySem` under a one-to-one view of the heap, whatever others do to objects outside the view; an invariant over schedules with disjoint views; C60 to C62 for what each call alone does |
| C69 | a type system for writes, sound for every program of the subset under any interference (each read may return anything the invariant allows); the library's syntax trees pass the checker by computation; an invariant over schedules |
| C70 | the soundness proof of C69 carries what a stream holds along, for the one thread that writes to it; any schedule can be run to its end (C68), where the text is known |
| C71 | C69 says what the dict may have become; the encoder depends on the contents only (C14), and the texts do what the model says (C60, C61, C62) |
