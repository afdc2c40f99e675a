{"id": "C01", "title": "Encode then decode returns the message", "statement": "If encode(doc, spec) succeeds with bytes s, then decode(s, spec) succeeds; its decoded dict holds, for the header (when the spec has one), message type, bitmaps and every data field, exactly the value left in doc, hex data of binary fields being upper-cased; its encoded dict is the one encode returned.", "quantifier": "every dict of str keys and str values, every spec whose text encodings round-trip and whose pad characters are upper-case hex digits, every combination of fixed/variable, text/BCD/binary length, bytes/nibbles, left/right pad", "why_tests_cant": "unbounded messages, unbounded field contents, all 192 fields in any combination and all specs", "anchors": ["iso8583/decoder.py:decode", "iso8583/encoder.py:encode"]}
{"id": "C02", "title": "Decode accepts exactly the ISO8583 wire language of the spec", "statement": "decode(s, spec) succeeds with (doc_dec, doc_enc) if and only if s is the concatenation header? type primary-bitmap (secondary(+tertiary) bitmap)? data-fields-in-ascending-order of well-formed segments, where a segment is present exactly when its bitmap bit is on; the two dicts list exactly those segments in that order.", "quantifier": "every byte string and every complete spec", "why_tests_cant": "needs both directions for all byte strings", "anchors": ["iso8583/decoder.py:decode", "iso8583/decoder.py:_decode_field", "iso8583/decoder.py:_decode_bitmap", "iso8583/decoder.py:_decode_type", "iso8583/decoder.py:_decode_header"]}
{"id": "C03", "title": "Decode accounts for every byte exactly once", "statement": "After a successful decode, concatenating len+data of the encoded dict in insertion order gives back s: no byte is dropped, duplicated, re-ordered or shared by two fields; both dicts have the same keys in the same order, each once.", "quantifier": "every byte string and every spec for which decode returns", "why_tests_cant": "holds for every input length and field layout", "anchors": ["iso8583/decoder.py:decode"]}
{"id": "C04", "title": "Encode output is exactly the concatenation of the encoded dict", "statement": "When encode returns (s, doc_enc), s is the concatenation of len+data of doc_enc in insertion order, and that order is header?, t, p, 1?, then data fields in ascending numeric order, each once.", "quantifier": "every dict and spec for which encode returns", "why_tests_cant": "all field combinations", "anchors": ["iso8583/encoder.py:encode"]}
{"id": "C05", "title": "Encoded bitmaps name exactly the fields present", "statement": "When encode returns, bit n of the bitmaps (n in 2..64, 66..192) is on iff the dict has data field n; bit 1 is on iff some field 65..192 is present; bit 65 is on iff some field 129..192 is present.", "quantifier": "every dict with canonical decimal keys, every subset of the 190 data fields, and all 192 bit positions", "why_tests_cant": "2^190 subsets", "anchors": ["iso8583/encoder.py:_encode_bitmap", "iso8583/encoder.py:encode"]}
{"id": "C06", "title": "Decoded keys are exactly the fields named by the bitmaps", "statement": "When decode returns, key n (2..64, 66..192) is in the decoded dict iff the corresponding bit of the received bitmap is on; key 1 is present iff primary bit 1 is on; key 65 never is; h is present iff the spec enables a header; t and p always are; nothing else is.", "quantifier": "every byte string and spec for which decode returns", "why_tests_cant": "2^192 bitmaps", "anchors": ["iso8583/decoder.py:_decode_bitmap", "iso8583/decoder.py:decode"]}
{"id": "C07", "title": "Decode raises nothing but DecodeError on hostile bytes", "statement": "For any bytes or bytearray input and any spec that defines all mandatory properties of h, t, p, 1 and 2..192 and no number too long to be printed (above 4300 digits by default), decode either returns or raises DecodeError; no KeyError, IndexError, ValueError or other exception escapes. With any spec, only KeyError and, for numbers too long to be printed, ValueError can escape besides. (Also record whether the shipped specs are such specs.)", "quantifier": "every byte string and every complete spec", "why_tests_cant": "fuzzing samples only; the guarantee is for all inputs", "anchors": ["iso8583/decoder.py:decode", "iso8583/specs.py:default", "iso8583/specs.py:default_ascii"]}
{"id": "C08", "title": "Encode raises nothing but EncodeError on str dicts", "statement": "For any dict of str keys and str values and any complete spec, encode either returns or raises EncodeError.", "quantifier": "every dict of str to str and every complete spec", "why_tests_cant": "all strings, including non-ASCII numerals and zero-padded keys", "anchors": ["iso8583/encoder.py:encode"]}
{"id": "C09", "title": "Messages are self-delimiting", "statement": "If decode accepts s, then it rejects every proper prefix of s and every proper extension of s (an extension with 'Extra data after last field' at the position where s ended).", "quantifier": "every accepted byte string, every proper prefix, every non-empty suffix", "why_tests_cant": "all truncation points and all suffixes", "anchors": ["iso8583/decoder.py:decode"]}
{"id": "C10", "title": "DecodeError tells the truth about where and what failed", "statement": "When decode raises DecodeError e: e.s is the input; 0 <= e.pos <= len(s); the partial dicts have the same keys in the same order with the failing field last; everything before the failing field was decoded completely and its encoded bytes are exactly the prefix of s before that field; the error text is the message followed by exactly this field and position.", "quantifier": "every byte string and spec for which decode raises DecodeError", "why_tests_cant": "all failure points of all inputs", "anchors": ["iso8583/decoder.py:DecodeError", "iso8583/decoder.py:decode"]}
{"id": "C11", "title": "EncodeError tells the truth about what failed", "statement": "When encode raises EncodeError e: e.doc_dec is the caller's dict; e.doc_enc holds exactly the complete encodings of the fields before the failing one in wire order, plus possibly an entry for the failing field itself, which is last and is e.field.", "quantifier": "every dict and spec for which encode raises EncodeError", "why_tests_cant": "all failure points", "anchors": ["iso8583/encoder.py:EncodeError", "iso8583/encoder.py:encode"]}
{"id": "C12", "title": "Encode changes nothing in the caller's dict but bitmaps", "statement": "Whatever the outcome of encode (return, EncodeError or any other exception), every key of the caller's dict other than 'p', '1' and '65' keeps its value and relative position, and no other key is added or removed.", "quantifier": "every dict (including non-str keys and values), every spec, every outcome", "why_tests_cant": "must hold at every possible exception point", "anchors": ["iso8583/encoder.py:encode"]}
{"id": "C13", "title": "Encode is idempotent", "statement": "Encoding the dict that a successful encode left behind succeeds with the same bytes and the same encoded dict and leaves the dict with the same contents.", "quantifier": "every dict and spec for which encode returns", "why_tests_cant": "all dicts", "anchors": ["iso8583/encoder.py:encode"]}
{"id": "C14", "title": "Encode depends only on the current fields, not on history", "statement": "The bytes produced by encode depend only on the set of (field, value) pairs present apart from p, 1 and 65: not on insertion order, stale bitmap values, or any earlier sequence of edits and (successful or failed) encodes performed on the same dict.", "quantifier": "every pair of dicts with the same content; every finite history of set / delete / encode operations", "why_tests_cant": "unbounded histories", "anchors": ["iso8583/encoder.py:encode"]}
{"id": "C15", "title": "Field length limits are enforced on both sides", "statement": "In every successfully decoded or encoded message, a fixed-length field has exactly max_len units and a variable-length field at most max_len units, a unit being a byte or a nibble as len_count says, and the data occupies exactly that many bytes (nibbles rounded up).", "quantifier": "every message accepted by decode or produced by encode, every spec", "why_tests_cant": "all lengths", "anchors": ["iso8583/decoder.py:_decode_field", "iso8583/encoder.py:_encode_field"]}
{"id": "C16", "title": "Length prefixes are exact", "statement": "For every variable-length field encode emits, the length prefix is exactly len_type bytes wide and denotes (big-endian binary, BCD, or zero-padded decimal text) exactly the number of units of data that follow; a length that does not fit is rejected with EncodeError (when no len_type of the spec is negative and no max_len too long to be printed) rather than truncated or widened.", "quantifier": "every field value and every length encoding and width", "why_tests_cant": "all lengths and widths; unbounded integers", "anchors": ["iso8583/encoder.py:_encode_field", "iso8583/decoder.py:_decode_field"]}
{"id": "C17", "title": "Nibble padding is transparent", "statement": "For binary fields counted in nibbles, an odd number of hex digits is sent with one pad nibble (left if left_pad is set, otherwise right), the pad is not counted in the length, and decode removes exactly the pad nibble; even-length data is never padded; odd data with no pad configured is rejected (when no len_type of the spec is negative and no max_len too long to be printed).", "quantifier": "every hex string and every pad configuration", "why_tests_cant": "all strings and pads", "anchors": ["iso8583/encoder.py:_add_pad_field", "iso8583/decoder.py:_remove_pad_field", "iso8583/encoder.py:_encode_bindary_field"]}
{"id": "C18", "title": "Decode then encode reproduces the received bytes", "statement": "If decode(s) returns doc_dec then encode(doc_dec) returns exactly s, provided s is canonical (upper-case bitmap without whitespace, bits 1/65 on only when needed, lengths in canonical form, pad on the configured side); without canonicality the claim fails.", "quantifier": "every byte string accepted by decode", "why_tests_cant": "all inputs; the non-canonical exceptions are easy to miss", "anchors": ["iso8583/decoder.py:decode", "iso8583/encoder.py:encode"]}
{"id": "C19", "title": "Re-encoding is stable", "statement": "encode(decode(encode(doc))) yields the same bytes as encode(doc).", "quantifier": "every str dict with canonical numeric keys (no key such as \"01\" that denotes a bitmap indicator) and every round-tripping spec for which encode returns", "why_tests_cant": "all messages", "anchors": ["iso8583/decoder.py:decode", "iso8583/encoder.py:encode"]}
{"id": "C20", "title": "Different messages never share an encoding", "statement": "If two dicts encode to the same bytes under one spec then they have the same type, header and data fields with the same values up to the letter case of hex data.", "quantifier": "every pair of dicts", "why_tests_cant": "quantifies over pairs of messages", "anchors": ["iso8583/encoder.py:encode"]}
{"id": "C21", "title": "Changing one field changes only its own segment", "statement": "Replacing the value of one data field by another encodable value changes only that field's segment of the output; all bytes before and after it, and every other entry of the encoded dict, are unchanged.", "quantifier": "every dict, field and replacement value", "why_tests_cant": "all pairs of values and contexts", "anchors": ["iso8583/encoder.py:encode", "iso8583/encoder.py:_encode_field"]}
{"id": "C22", "title": "Documented don't-care spec properties really do not matter", "statement": "Changing desc anywhere, len_enc of a fixed-length field, left_pad/right_pad of a field that is not (binary and counted in nibbles), or the entry of a field not present in the message, never changes the result of encode or decode; omitting len_count is the same as 'bytes'.", "quantifier": "every input and every pair of specs differing only in such properties", "why_tests_cant": "quantifies over pairs of specs", "anchors": ["iso8583/decoder.py:decode", "iso8583/encoder.py:encode", "iso8583/specs.py"]}
{"id": "C23", "title": "bytes and bytearray inputs decode alike", "statement": "decode gives the same dicts or the same error (message, position, field, partial dicts) for bytes and bytearray with equal content, and raises TypeError for anything else.", "quantifier": "every byte content and spec", "why_tests_cant": "all contents", "anchors": ["iso8583/decoder.py:decode"]}
{"id": "C24", "title": "Shipped specs round-trip every message", "statement": "With iso8583.specs.default and default_ascii, for every str dict that encode accepts, decode returns exactly the fields of the dict (with default, the hex data of the binary fields 52, 55, 64, 96 and 128 upper-cased), without any further assumption on the spec.", "quantifier": "every dict", "why_tests_cant": "all dicts over the shipped specs", "anchors": ["iso8583/specs.py:default", "iso8583/specs.py:default_ascii", "iso8583/encoder.py:encode", "iso8583/decoder.py:decode"]}
{"id": "C25", "title": "Shipped specs can express every length they allow", "statement": "With the shipped specs, encode never raises 'field length does not fit into configured field size', for any message.", "quantifier": "every dict", "why_tests_cant": "all messages", "anchors": ["iso8583/specs.py:default", "iso8583/specs.py:default_ascii", "iso8583/encoder.py:_encode_field"]}
{"id": "C26", "title": "Pretty printer shows every field once, in order", "statement": "pp writes one entry for h (if the spec has a header), t, p, and then each numeric key of the dict, in ascending numeric order, each exactly once and nothing for other keys. The layout of each entry (key, description, length, value folded at the line width) determines the whole output, whatever objects the values are; str and bytes are folded, other objects are written as their repr() on one line. pp raises exactly when the spec lacks a needed entry, max_len or desc, a numeric key is no int, or the \"len\" of an entry has no len(), after writing exactly the entries before it and the part of the entry it could not finish.", "quantifier": "every dict, with any objects as values, every spec, desc_width and line_width", "why_tests_cant": "all key sets", "anchors": ["iso8583/tools.py:pp", "iso8583/tools.py:_pp_field"]}
{"id": "C27", "title": "Folding of bytes loses nothing", "statement": "The chunks a folded bytes value is printed in are non-empty, concatenate to exactly the value, and each printed chunk fits the width unless it is a single byte; chunks are maximal.", "quantifier": "every bytes value and every width, including zero and negative", "why_tests_cant": "all values and widths", "anchors": ["iso8583/tools.py:_wrap_bytes_repr"]}
{"id": "C28", "title": "Folding of str loses nothing", "statement": "The chunks a folded str value is printed in are non-empty, concatenate to exactly the value, and all but the last have the same maximal number of characters.", "quantifier": "every str value and width", "why_tests_cant": "all values and widths", "anchors": ["iso8583/tools.py:_wrap_str_repr"]}
{"id": "C29", "title": "Pretty-printed lines respect line_width", "statement": "Every output line of pp is at most line_width characters long whenever the width leaves room for one character of each str or bytes value per line and for the repr() of any other object, the keys have at most three characters, and no str value needs escapes in its repr. Without the last two conditions lines do get longer.", "quantifier": "every dict, spec, desc_width and line_width", "why_tests_cant": "all values; fails for characters that repr escapes", "anchors": ["iso8583/tools.py:pp", "iso8583/tools.py:_pp_field", "iso8583/tools.py:_wrap_str_repr"]}
{"id": "C30", "title": "Errors survive pickling", "statement": "Rebuilding a DecodeError or EncodeError from what __reduce__ returns gives an equal error: same msg, s, doc_dec, doc_enc, pos, field and formatted args.", "quantifier": "every error value", "why_tests_cant": "all values", "anchors": ["iso8583/decoder.py:DecodeError.__reduce__", "iso8583/encoder.py:EncodeError.__reduce__"]}
{"id": "C31", "title": "Secondary bitmap is managed automatically", "statement": "After a successful encode the caller's dict has key '1' iff some field 65..192 is present (whatever it had before), with 16 hex digits, or 32 iff some field 129..192 is present; '65' is never a key; 'p' always is, with 16 hex digits.", "quantifier": "every dict with canonical keys", "why_tests_cant": "all subsets of fields and prior values", "anchors": ["iso8583/encoder.py:encode"]}
{"id": "C32", "title": "Encode succeeds exactly on encodable messages", "statement": "encode returns iff the message type encodes to its fixed size, the header (if the spec has one) is present and encodable, every numeric key is in 1..192 and every present field is encodable under its spec entry; otherwise it raises.", "quantifier": "every str dict with canonical keys and every complete spec", "why_tests_cant": "both directions for all dicts", "anchors": ["iso8583/encoder.py:encode"]}
{"id": "C33", "title": "Text bitmaps are read case-insensitively", "statement": "Two messages differing only in the letter case of a hexadecimal text bitmap decode to the same data fields.", "quantifier": "every message", "why_tests_cant": "all bitmaps and messages", "anchors": ["iso8583/decoder.py:_decode_bitmap"]}
{"id": "C34", "title": "left_pad takes precedence over right_pad", "statement": "When both pads are configured, encode pads on the left only, and decode removes a left pad when present.", "quantifier": "every field value", "why_tests_cant": "all strings", "anchors": ["iso8583/encoder.py:_add_pad_field", "iso8583/decoder.py:_remove_pad_field"]}
{"id": "C35", "title": "Header is governed by the spec alone", "statement": "If the spec disables the header (max_len <= 0) neither encode nor decode reads or writes one, whatever the dict holds; if it enables it, a dict without 'h' is rejected with EncodeError on field h.", "quantifier": "every dict, byte string and spec", "why_tests_cant": "all inputs", "anchors": ["iso8583/encoder.py:_encode_header", "iso8583/decoder.py:_decode_header"]}
{"id": "C36", "title": "Bitmap computation does not depend on set iteration order", "statement": "The bitmap encode emits is the same for every iteration order Python may choose for the set of fields.", "quantifier": "every permutation of every set of fields", "why_tests_cant": "Python set order is unspecified", "anchors": ["iso8583/encoder.py:_encode_bitmap"]}
{"id": "C37", "title": "Binary values decode to canonical hex", "statement": "Every binary field, binary type and binary bitmap decodes to upper-case hexadecimal digits, two per byte (less one removed pad nibble).", "quantifier": "every message", "why_tests_cant": "all bytes", "anchors": ["iso8583/decoder.py:_decode_field", "iso8583/decoder.py:_decode_type", "iso8583/decoder.py:_decode_bitmap"]}
{"id": "C38", "title": "Which exceptions encode raises on str dicts", "statement": "For any dict of str keys and str values and any complete spec, encode raises only EncodeError, except: KeyError of field n when a numeric key denotes n but is not spelled str(n) and str(n) is no key; ValueError when a key is numeric but not an integer literal, or when an entry of the spec has a negative len_type or a max_len of more digits than CPython prints. With canonical decimal keys and no such entry only EncodeError.", "quantifier": "every dict of str to str and every complete spec", "why_tests_cant": "negative claim over all unicode keys", "anchors": ["iso8583/encoder.py:encode", "iso8583/encoder.py:_encode_bitmaps"]}
{"id": "C39", "title": "Results of decode and encode can always be pretty-printed", "statement": "The dicts decode returns, the partial dicts a DecodeError or EncodeError carries, and the encoded dict encode returns have only keys that the spec defines; hence pp prints them without raising whenever the spec gives a desc for each of its entries (the shipped specs do). The same holds for the caller's dict after a successful encode if its numeric keys are canonical; with a key such as '02' pp raises KeyError.", "quantifier": "All inputs, specs with descriptions, desc_width and line_width.", "why_tests_cant": "Quantifies over all messages, failures at every position and all widths.", "anchors": ["iso8583/decoder.py:decode", "iso8583/encoder.py:encode", "iso8583/tools.py:pp"]}
{"id": "C40", "title": "Decode errors are exactly the faults of the wire format", "statement": "For every input, decode raises a DecodeError exactly when the input has a fault: a cut header, type, bitmap or field, a negative len_type, an unreadable length, a length above the maximum, data the encoding cannot read, non-hex bitmap text, a missing pad nibble, or data after the last field. The error then carries precisely the message for that fault, its position, the fields completely read before it in wire order, and what was read of the field concerned. When the message would have to show a number with more digits than CPython prints (4300 by default), ValueError is raised instead, and only then. An input has at most one fault, and for a complete spec every input that is not a message has one.", "quantifier": "all byte strings, all specs, all interpreters whose codecs do not expand 16 bytes to more than 16 hex digits", "why_tests_cant": "all malformed inputs: unbounded lengths, positions, fields and error kinds in any combination; uniqueness of the diagnosis cannot be sampled", "anchors": ["iso8583/decoder.py:decode", "iso8583/decoder.py:_decode_field", "iso8583/decoder.py:_decode_bitmaps", "iso8583/decoder.py:DecodeError"]}
{"id": "C41", "title": "A cut message is reported at the cut", "statement": "Cutting any non-empty tail off a message decode accepts makes decode raise DecodeError (when the spec has no number too long to be printed); the error names the field in which the cut lies, its dicts agree with those of the whole message on every earlier field, and the bytes recorded in doc_enc are exactly the bytes received.", "quantifier": "all messages decode accepts, all specs, all cut points", "why_tests_cant": "every message times every cut point", "anchors": ["iso8583/decoder.py:decode"]}
{"id": "C42", "title": "Streams of messages split in one way only", "statement": "If two lists of messages that decode accepts have the same concatenation then they are the same list; and if the first n messages of a stream are accepted ones, they and the remaining bytes are determined by the stream.", "quantifier": "all specs, all finite lists of accepted messages of any length", "why_tests_cant": "unbounded streams; unique decodability is a statement about pairs of streams", "anchors": ["iso8583/decoder.py:decode"]}
{"id": "C43", "title": "Encode errors are exactly the refusals of the wire format", "statement": "For every dict, encode raises an EncodeError exactly when the dict cannot be sent: a missing header or type, a value its encoding cannot write, odd or non-hex digits, a missing pad, a length different from the fixed one, above the maximum (a limit short enough to be printed) or too wide for its prefix, a text length under a negative len_type, keys that are not str or outside 1-192, or a bitmap its encoding cannot write. The error carries precisely the message for that refusal, the field concerned, everything encoded before it in wire order and what was recorded of that field, and the caller's dict is exactly as described. A dict has at most one fault, never both a fault and an encoding, and for complete specs without negative len_type or unprintable max_len and str dicts with canonical keys always one of them.", "quantifier": "all specs, all dicts with arbitrary keys and values, all interpreters (the last clause: those whose int() reads plain decimal numbers)", "why_tests_cant": "all unsendable dicts: unbounded sizes and every combination of several faults at once, of which the first in wire order must be reported", "anchors": ["iso8583/encoder.py:encode", "iso8583/encoder.py:_encode_field", "iso8583/encoder.py:_encode_bitmaps", "iso8583/encoder.py:_encode_type", "iso8583/encoder.py:_encode_header", "iso8583/encoder.py:EncodeError"]}
{"id": "C44", "title": "The pretty-printed text determines what was printed", "statement": "If pp prints the same text for two dicts under the same spec and widths, then the same keys were printed for both, in the same order, with the same length prefix (or an empty one for both) and the same value of the same kind (str or bytes) for each key, however the values were folded and whatever quotes, newlines or escapes they contain. In particular two messages accepted by decode, or produced by encode, whose encoded dicts print alike are the same bytes, and two decoded dicts that print alike are equal.", "quantifier": "all specs, all widths, all dicts of str, bytes and dict entries made of them, all values of any length", "why_tests_cant": "injectivity over unbounded values: needs every pair of dicts, including values that imitate separators, quotes and escapes", "anchors": ["iso8583/tools.py:pp", "iso8583/tools.py:_pp_field", "iso8583/tools.py:_wrap_bytes_repr", "iso8583/tools.py:_wrap_str_repr"]}
{"id": "C45", "title": "Specs and dicts matter only as mappings", "statement": "decode, encode and pp use a spec only through lookups: two specs in which every key has the same entry, for instance reorderings of one another, give the same results and the same errors. Reordering a dict changes nothing pp prints or raises unless two keys spell the same number; reordering a dict that encode refuses, or changing its bitmaps, changes neither the message, the field nor the recorded bytes of the EncodeError, nor the class and argument of any other exception, unless some key is not a str.", "quantifier": "all specs and their reorderings, all inputs, all dicts and their reorderings", "why_tests_cant": "all permutations of all specs and dicts", "anchors": ["iso8583/decoder.py:decode", "iso8583/encoder.py:encode", "iso8583/tools.py:pp"]}
{"id": "C46", "title": "Extending a spec is backward compatible", "statement": "When a spec is extended by adding entries and by raising max_len of variable-length fields (the header staying switched on or off), every message decode accepted is accepted with the same dicts and every dict encode accepted is encoded to the same bytes. Conversely whatever the extended spec accepts in addition has a field the old spec did not specify or one longer than its old max_len.", "quantifier": "all pairs of specs related this way, all messages and dicts", "why_tests_cant": "relates two runs for every pair of specs and every message", "anchors": ["iso8583/decoder.py:_decode_field", "iso8583/encoder.py:_encode_field"]}
{"id": "C47", "title": "Fields are independent of each other", "statement": "The field, header or message type of any accepted message can be cut out and pasted over the same field of any other accepted message of the spec, whatever its length: the result is accepted, the pasted field decodes as in its origin and every other field as before. Two encodable dicts with the same value for a field send the same bytes for it whatever else they hold, and a dict mixed from the values of two encodable dicts is encodable.", "quantifier": "all specs, all pairs of messages, all pairs of dicts, all fields", "why_tests_cant": "relates three runs for every pair of messages and every field", "anchors": ["iso8583/decoder.py:decode", "iso8583/decoder.py:_decode_field", "iso8583/encoder.py:encode", "iso8583/encoder.py:_encode_field"]}
{"id": "C48", "title": "What an incomplete spec does to decode", "statement": "With any spec, complete or not, decode of bytes returns, raises DecodeError or raises KeyError, and nothing else but a ValueError for a number too long to be printed. It raises KeyError nm exactly when reading gets to a field whose entry, or a property it needs at that point, is missing from the spec and is named nm: unneeded properties (len_enc of fixed fields, data_enc of empty fields, entries of fields not announced) are never missed, and a fault of the bytes found earlier takes precedence. With the shipped specs this happens exactly when a message is readable up to an announced field 129..192.", "quantifier": "all specs with any subset of entries and properties, all inputs", "why_tests_cant": "every subset of properties against every input, and the absence of any further exception", "anchors": ["iso8583/decoder.py:decode", "iso8583/decoder.py:_decode_field", "iso8583/decoder.py:_decode_bitmap", "iso8583/decoder.py:_decode_type", "iso8583/decoder.py:_decode_header", "iso8583/specs.py:default", "iso8583/specs.py:default_ascii"]}
{"id": "C49", "title": "Every way encode can fail otherwise than by EncodeError", "statement": "For every dict, holding any Python keys and values, and every spec, complete or not, exactly one holds: the dict has a message, or encode raises EncodeError for a fault of the dict, or another exception escapes. What escapes is exactly: KeyError for a spec entry or property missing at the point it is needed, or for a field held under another spelling of its number; ValueError for a numeric key int() does not read, for a binary or BCD length under a negative len_type, or for a limit exceeded that is too long to be printed; UnboundLocalError or TypeError for a hex value without length or a non-str value to be padded. Exception and caller's dict afterwards are determined. With the shipped specs, decimal keys and str values, only KeyError of a field 129..192 escapes. An argument that is no dict raises TypeError naming its class.", "quantifier": "all dicts with arbitrary keys and values, all specs with any subset of entries and properties, all interpreters", "why_tests_cant": "the combination of all partial specs with all Python values, and the absence of any further exception", "anchors": ["iso8583/encoder.py:encode", "iso8583/encoder.py:_encode_field", "iso8583/encoder.py:_encode_bindary_field", "iso8583/encoder.py:_encode_type", "iso8583/encoder.py:_encode_header", "iso8583/encoder.py:_encode_bitmap", "iso8583/specs.py:default", "iso8583/specs.py:default_ascii"]}
{"id": "C50", "title": "Exactly which messages the shipped specs can send", "statement": "With iso8583.specs.default and default_ascii, encode succeeds on a str dict (numeric keys in plain decimal) exactly when the type is four ASCII characters, every numeric key is in 1..128, and every data field holds a proper value: ASCII text (hex digits, two per byte, for binary fields) of exactly max_len bytes when the length is fixed and at most max_len otherwise. Nothing else in the dict matters.", "quantifier": "all str dicts, both shipped specs, all interpreters with CPython's ASCII codec", "why_tests_cant": "every length and character of every field, and the absence of hidden restrictions, for all combinations of fields", "anchors": ["iso8583/specs.py:default", "iso8583/specs.py:default_ascii", "iso8583/encoder.py:encode"]}
{"id": "C51", "title": "The spec bounds the size of messages", "statement": "The bytes of a message decode accepts or encode produces lie between the sums of the smallest and of the largest sizes its parts can have according to the spec, and never exceed the capacity of the spec; when all parts have fixed sizes the size is determined. With default a message has 12 to 35806 bytes, with default_ascii 20 to 36117, and these bounds are reached.", "quantifier": "all accepted byte strings and encodable dicts, all specs (encode: specs whose text encodings of lengths and bitmaps write one byte per ASCII character)", "why_tests_cant": "bound over all messages of all specs", "anchors": ["iso8583/decoder.py:decode", "iso8583/encoder.py:encode", "iso8583/specs.py:default", "iso8583/specs.py:default_ascii"]}
{"id": "C52", "title": "Altered field data stays local", "statement": "When the data bytes of the header, the type or one data field of an accepted message are replaced by other bytes of the same number, decode either accepts the new message, both dicts differing from the old ones in that field only, or raises a DecodeError for that field at the position of its data, carrying all earlier fields unchanged and none of the later ones. The new value of a field counted in bytes is what its bytes say: their hexadecimal digits, or their text when the codec can read it.", "quantifier": "all accepted messages, all keys but the bitmaps, all replacement bytes, all specs whose text bitmaps spell at most 64 bits and whose numbers can be printed", "why_tests_cant": "all alterations of all messages of all specs", "anchors": ["iso8583/decoder.py:_decode_field", "iso8583/decoder.py:_decode_type", "iso8583/decoder.py:decode"]}
{"id": "C53", "title": "Reading depends only on the bytes read", "statement": "Fields that decode has read completely from an input, be it accepted or refused, appear with the same values and bytes in the result or in the DecodeError of every input that begins with the bytes of these fields, and a DecodeError of such an input is positioned at or after the end of these bytes.", "quantifier": "all pairs of inputs with a common beginning, all specs whose text bitmaps spell at most 64 bits", "why_tests_cant": "relates all pairs of inputs of unbounded length", "anchors": ["iso8583/decoder.py:decode", "iso8583/decoder.py:_decode_field", "iso8583/decoder.py:_decode_bitmap"]}
{"id": "C54", "title": "Messages pass from one spec to another", "statement": "The dict decode returned under one spec can be encoded under another exactly when the type, the header (if the second spec has one) and every data field present can be encoded there; decoding the result under the second spec returns the received values of all these keys, upper-cased where the second spec is binary. With the shipped specs: what is decoded can always be encoded under the same spec; what is decoded under default can always be encoded under default_ascii and arrives with the same values; what is decoded under default_ascii can be encoded under default exactly when fields 52, 55, 64, 96 and 128, if present, hold an even number of hexadecimal digits, and arrives with the same values, these upper-cased; passing a message from default to default_ascii and back returns its values.", "quantifier": "all accepted messages; all pairs of specs (first: text bitmaps spell at most 64 bits, second: bitmaps sendable resp. codecs reversible); all interpreters whose ascii codec is Python's for the shipped specs", "why_tests_cant": "all messages of all pairs of specs", "anchors": ["iso8583/decoder.py:decode", "iso8583/encoder.py:encode", "iso8583/specs.py:default", "iso8583/specs.py:default_ascii"]}
{"id": "C55", "title": "Leaving fields out leaves the others alone", "statement": "A dict that encode accepts is still accepted after any of its fields but the type (and the header, where the spec has one) are removed. The bytes sent for the remaining keys, bitmaps aside, are those sent before, in the same order, and nothing else is sent. More generally two accepted dicts that agree on a set of keys other than the bitmaps have the same encoded entries for these keys, in the same order.", "quantifier": "all specs, all dicts, all sets of removed keys; acceptance: str dicts with canonical keys, specs whose bitmaps are sendable", "why_tests_cant": "all subsets of the fields of all messages", "anchors": ["iso8583/encoder.py:encode", "iso8583/encoder.py:_encode_field"]}
{"id": "C56", "title": "Texts and numbers mean what Python says", "statement": "The built-ins the library calls, as modelled, do what Python documents: int() reads exactly the signed decimal numerals with blanks around and single underscores between digits; str() and the zero-padding format write the canonical numeral, padded only up to the width; int.from_bytes and to_bytes are base 256, most significant byte first, and to_bytes fails exactly when the number does not fit; bytes.fromhex reads digit pairs with blanks between bytes, a2b_hex digit pairs only, bytes.hex writes lower-case pairs and upper() raises the letters a to z; slices take the elements between two places, negative indices counting from the end; join and left-justification add only separators and blanks; ascii, latin-1 and utf-8 are the standard encodings in both directions and cp500 is one-to-one with the EBCDIC codes of space, letters and digits; these are found under their names and other names are unknown; dicts keep insertion order and one value per key; sets of int are sorted lists without duplicates.", "quantifier": "all texts, byte strings, numbers, dicts and sets of every size, all interpreters (codecs: the modelled CPython 3.11)", "why_tests_cant": "the input spaces are infinite; off-by-one and sign corners are easily missed", "anchors": ["iso8583/decoder.py:_decode_bitmap", "iso8583/decoder.py:_decode_field", "iso8583/encoder.py:_encode_field", "iso8583/encoder.py:_encode_bitmaps", "iso8583/tools.py:pp"]}
{"id": "C57", "title": "Printed values are Python literals", "statement": "When pp prints a dict of str and bytes values, the output consists of one entry per shown key: the key and the description, each padded on the right, then the length and the value. The text of the length and of the value are Python expressions, made of adjacent string or bytes literals on consecutive lines, that evaluate to exactly the length and the value in the dict, and they contain only printable characters apart from line breaks. No text evaluates to two values.", "quantifier": "all specs, all dicts of str and bytes values (also in len/data dicts), all widths, all interpreters", "why_tests_cant": "all texts with any mixture of quotes, escapes and folding positions", "anchors": ["iso8583/tools.py:_pp_field", "iso8583/tools.py:_pprint_str", "iso8583/tools.py:_pprint_bytes", "iso8583/tools.py:_wrap_str_repr", "iso8583/tools.py:_wrap_bytes_repr"]}
{"id": "C58", "title": "Encode reports the first field that cannot be sent", "statement": "For a dict that is fine apart from its data fields (header, type, keys and bitmaps can be sent, the spec has no negative len_type or unprintable max_len), encode raises EncodeError naming field n exactly when n is the lowest data field in the dict whose value cannot be sent, and succeeds exactly when there is no such field. A caller who drops the field named by each EncodeError and tries again ends, after at most as many tries as the dict has keys plus one, with a successful encode of exactly the sendable fields.", "quantifier": "all specs, all dicts with sendable header, type and bitmaps, any number of unsendable fields, all interpreters", "why_tests_cant": "any subset of 190 fields may be unsendable for different reasons; the loop has no fixed length", "anchors": ["iso8583/encoder.py:encode", "iso8583/encoder.py:_encode_bitmaps", "iso8583/encoder.py:_encode_field"]}
{"id": "C59", "title": "What was read before a DecodeError is itself a message", "statement": "When decode raises DecodeError in a bitmap or data field, the fields read completely before it (doc_dec without the field named) can be encoded again, provided they are in the form a sender produces, and are sent with exactly the bytes recorded in doc_enc; only the bitmaps change. With reversible encodings, decoding that message gives the same values again.", "quantifier": "all specs with faithful encodings, all inputs of every length that fail behind the type, whatever the failure, all interpreters", "why_tests_cant": "every input can fail at every position in several ways", "anchors": ["iso8583/decoder.py:decode", "iso8583/decoder.py:DecodeError", "iso8583/encoder.py:encode"]}
{"id": "C60", "title": "The text of decoder.py does what its model says", "statement": "Running the syntax tree of decode() as written in decoder.py, with every function it calls, in a semantics of Python with a heap of mutable objects, ends as the model of decode ends: it returns two new dicts with the model's contents (one further new dict per entry of doc_enc, none shared), or raises the model's exception, DecodeError with the model's message, position and field, with the caller's own object as its s and the partly filled dicts as its doc_dec and doc_enc. No object that existed before is changed, neither the input nor anything else. No name is unbound, no attribute missing, no other exception escapes. The order in which sets are iterated over does not matter.", "quantifier": "all heaps, all inputs (bytes, bytearray, any other value) below 2^63 bytes, all specs, all set orders, all interpreters", "why_tests_cant": "ties every theorem about the model to the program text; aliasing and mutation of caller objects are not observed by comparing results", "anchors": ["iso8583/decoder.py:decode", "iso8583/decoder.py:_decode_header", "iso8583/decoder.py:_decode_type", "iso8583/decoder.py:_decode_bitmap", "iso8583/decoder.py:_decode_field", "iso8583/decoder.py:_decode_text_data", "iso8583/decoder.py:_remove_pad_field", "iso8583/decoder.py:DecodeError"]}
{"id": "C61", "title": "The text of encoder.py does what its model says", "statement": "Running the syntax tree of encode() as written in encoder.py, with every function it calls, in a semantics of Python with a heap of mutable objects, ends as the model of encode ends: it returns a new bytearray with the model's bytes and a new dict with the model's entries (one further new dict per entry, none shared), or raises the model's exception, EncodeError with the model's message and field, the caller's own dict as its doc_dec and the partly filled dict as its doc_enc. The caller's dict is left with the items the model says, in that order; every item is one it had or has a str as its value. No other object that existed before is changed, not even bytearrays in the dict. No name is unbound other than data_to_encode where the model says so, no other exception escapes. The order in which sets are iterated over does not matter.", "quantifier": "all heaps, all arguments (dicts with keys and values of any kind, any other value) with texts below 2^62, all specs (dicts of dicts on the heap, none of them the dict being encoded, or immutable mappings), all set orders, all interpreters with at most 64 bytes per character", "why_tests_cant": "ties every theorem about the model to the program text; mutation of the caller's dict and aliasing are not observed by comparing results", "anchors": ["iso8583/encoder.py:encode", "iso8583/encoder.py:_encode_header", "iso8583/encoder.py:_encode_type", "iso8583/encoder.py:_encode_bitmap", "iso8583/encoder.py:_encode_field", "iso8583/encoder.py:_encode_text_field", "iso8583/encoder.py:_encode_bindary_field", "iso8583/encoder.py:_add_pad_field", "iso8583/encoder.py:EncodeError"]}
{"id": "C62", "title": "The text of tools.py does what its model says", "statement": "Running the syntax tree of pp() as written in tools.py, with every function it calls and the table of printers built at module level, in a semantics of Python with a heap of mutable objects, appends to the stream exactly the text the model of pp writes and ends as the model ends: it returns None, or raises the model's KeyError, TypeError or ValueError after the text the model wrote before. The document, its inner dicts and every other object that existed before are left as they were. Without a stream the text goes to sys.stdout; without widths, descriptions take 30 characters and lines 80; widths may be given as texts.", "quantifier": "all heaps, all dicts with keys of any kind whose values are texts, bytes, bytearrays, dicts or other objects with a repr, all specs, all widths, all texts already on the stream, all interpreters", "why_tests_cant": "ties every theorem about the model of pp to the program text; that nothing else is touched is not observed by comparing output", "anchors": ["iso8583/tools.py:pp", "iso8583/tools.py:_pp_field", "iso8583/tools.py:_pprint_str", "iso8583/tools.py:_pprint_bytes", "iso8583/tools.py:_wrap_str_repr", "iso8583/tools.py:_wrap_bytes_repr"]}
{"id": "C63", "title": "Sequences of calls of the library's text", "statement": "Running the text of the library, call after call, in one heap: (1) if encode() returns for a dict of texts, decode() of the bytearray it returned returns, its second dict has the same entries as encode()'s without sharing any object, and its first dict holds exactly the keys that go on the wire, each with the text the caller's dict now has (hexadecimal in upper case), the caller's texts other than the bitmaps being those put in; (2) encode() called again on the same dict returns a different bytearray with the same bytes and a different dict with the same entries, and leaves the dict as it is; (3) encode() of the dict that decode() returned gives the bytes that were decoded, if they were canonical; (4) decode() of bytes either returns or raises DecodeError, encode() of a dict with canonical keys either returns or raises EncodeError, for complete specs; (5) pp() prints either dict that decode() returned, without exception, and changes nothing but the stream.", "quantifier": "all heaps, dicts, bytes, specs (reversible, faithful, complete or described as the part needs), set orders, interpreters with reasonable codecs, any stack depth of at least 5", "why_tests_cant": "states the guarantees of the library about its program text, over all heaps, without reference to the model", "anchors": ["iso8583/encoder.py:encode", "iso8583/decoder.py:decode", "iso8583/tools.py:pp"]}
{"id": "C64", "title": "The text of specs.py makes the two specifications the library ships", "statement": "Running the two statements of specs.py in a semantics of Python with a heap of mutable objects binds default and default_ascii to two new dicts of new dicts. They hold exactly the two specifications of the model. No entry of a field is shared with another field or with the other specification, and no object that existed before is changed. With either of them, encode() of a dict of texts followed by decode() of what it returned, all run from the text of the library, gives back the dict: whenever encode() returns, decode() returns, its first dict holds exactly the keys that go on the wire, each with the text put in (hexadecimal in upper case), and its second has the entries that encode() returned.", "quantifier": "all heaps, dicts of texts, set orders, interpreters with reasonable codecs whose ascii is ASCII, any stack depth of at least 5", "why_tests_cant": "that no two of 260 field entries are one object, and that editing one entry of a copy cannot affect another, is not seen by encoding and decoding; the round trip holds for every dict", "anchors": ["iso8583/specs.py:default", "iso8583/specs.py:default_ascii", "iso8583/encoder.py:encode", "iso8583/decoder.py:decode"]}
{"id": "C65", "title": "The exceptions of the library's text: what they carry, and that they survive being pickled", "statement": "When running the text of decode() ends in an exception object, that object is a DecodeError with the attributes msg, s, doc_dec, doc_enc, pos and field and the text msg: field F pos P. Its s is the very object that was given to decode(), its doc_dec and doc_enc are new dicts with what was read up to and including the part that failed, and its position lies within that part. No object that existed before is changed. Likewise for encode() and EncodeError, whose doc_dec is the very dict that was given to encode(). Running the text of __reduce__ returns the class and the arguments that the class takes, in the order it takes them, and changes nothing; calling the class with those arguments, in this heap or another, with copies of the three objects in place of them, makes one new object with the same attributes and the same text.", "quantifier": "all heaps, specs, inputs below 2^63 bytes, dicts of any values in memory, set orders, interpreters with reasonable codecs, any stack depth of at least 5; all messages, positions below 2^70 and fields", "why_tests_cant": "pickling is tested on one exception of each class; the identity of the objects carried, and that nothing else changes, is not observed", "anchors": ["iso8583/decoder.py:DecodeError", "iso8583/encoder.py:EncodeError", "iso8583/decoder.py:decode", "iso8583/encoder.py:encode"]}
{"id": "C66", "title": "Whole executions: the library keeps no state of its own", "statement": "Take any program in which somebody holds a dict of texts and a specification, and in which, any number of times and in any order, anybody calls encode(), decode() or pp() on any arguments that C60 to C62 cover (this dict among them, with this or other specifications, the call returning or raising; the specification itself is not encoded), the dict is edited, or anything happens elsewhere. Afterwards the specification is as it was, and the items of the dict other than p, 1 and 65 are exactly those that its edits alone leave. encode() of it then returns the same bytes and entries as encode() of any other dict with those items, in any other heap, with any specification object that says the same and with any iteration order of sets; or both raise an EncodeError with the same message, field and entries; or both raise another exception of the same class, with the same argument unless it is a ValueError. Likewise decode() returns the same dicts, or raises a DecodeError with the same message, position, field and dicts, for the same bytes in any two heaps, whether given as bytes or bytearray.", "quantifier": "all executions (any finite sequence of calls, edits and other changes), heaps, dicts of texts, specs, inputs below 2^63 bytes, set orders, interpreters with reasonable codecs", "why_tests_cant": "executions are unboundedly many; a cache or a default argument mutated by one call would show only in some later call on another object", "anchors": ["iso8583/encoder.py:encode", "iso8583/decoder.py:decode", "iso8583/tools.py:pp"]}
{"id": "C67", "title": "pp reads nothing of the specification but descriptions and the header's size", "statement": "If two specifications have the same entries among the keys shown and the descriptions there agree in the first desc_width characters (none are read when desc_width is not positive), and, where the dict has a key h, both have a header or neither has, then pp() writes the same text with either and ends in the same way. In particular all other properties may be rewritten or removed. The same holds of two runs of the text of pp() in any two heaps.", "quantifier": "every dict, every pair of such specs, every width, line width and interpreter", "why_tests_cant": "quantifies over pairs of specs; covers runs that raise", "anchors": ["iso8583/tools.py:pp", "iso8583/tools.py:_pp_field"]}
{"id": "C68", "title": "Threads: calls at the same time do not disturb each other", "statement": "Take any number of threads, each calling decode(), encode() or pp() on arguments that C60 to C62 cover. What each may change or is given (the dict, the stream, sys.stdout, a bytearray) is its own; all may share the same specification objects, dicts of dicts of immutable values. However the threads are switched, between any two accesses to objects, every thread that has ended has the outcome the property of the call demands, as if it had run alone: what decode() and encode() return or raise, with dicts of their own in the heap of all, what encode() leaves in the caller's dict, what pp() wrote to the stream. The shared specifications are unchanged at every moment. No schedule goes on forever, and where no thread can be switched to, all have ended. More generally, take calls of functions of any program in the subset of Python modelled, each owning what it is given except dicts that all share; if each of them alone, given for a shared dict a mapping nobody can change, ends, then under every schedule the shared dicts stay as they are and each call ends as it does alone, up to the places of objects in the heap.", "quantifier": "any number of threads, all schedules (finite sequences of switches between single accesses), heaps, inputs, dicts, specs, set orders, interpreters with reasonable codecs; all programs of the modelled subset for the general part", "why_tests_cant": "the schedules are exponentially many and cannot be forced from Python; a shared buffer, cache or spec written to temporarily would show only under some of them", "anchors": ["iso8583/decoder.py:decode", "iso8583/encoder.py:encode", "iso8583/tools.py:pp"]}
{"id": "C69", "title": "At every moment, whatever interrupts a call, the caller's objects are safe", "statement": "Take any number of calls of decode(), encode() and pp() on any arguments whatsoever, sharing whatever they like, one after the other or at the same time, and stop at any moment: after any finite sequence of single accesses to objects, in any order of the threads, as when KeyboardInterrupt or MemoryError ends a call halfway or another thread looks at the objects meanwhile. Then every object that existed before still exists and is exactly what it was, except: a dict given to encode() as doc_dec may have its entries p, 1 and 65 set to texts or removed, but holds all its other entries, with the same values in the same order; and a stream given to pp(), or its sys.stdout if it is given None, may have text appended to what it held. The specification, the data decoded and the dict printed are never written to, not even temporarily, and no iterator of the caller is advanced. Whatever a call has returned or raised, and every dict made by the calls, refers only to objects made by them: no later change of them reaches the caller's objects.", "quantifier": "any number of calls, all arguments (no functions, methods, classes or modules in them; a call is followed as long as it stays within the modelled subset of Python), heaps, schedules, moments, set orders, interpreters", "why_tests_cant": "a test looks at the objects after a call has ended; a value taken out of the specification or the dict and put back before the end, or a result that shares a dict with the specification, goes unnoticed, and there are exponentially many moments and schedules", "anchors": ["iso8583/decoder.py:decode", "iso8583/encoder.py:encode", "iso8583/encoder.py:_encode_bitmap", "iso8583/tools.py:pp"]}
{"id": "C70", "title": "pp writes in order: interrupted at any moment, it has written an initial part of its output", "statement": "Take any number of calls of decode(), encode() and pp() at the same time, and a stream that at most one of them prints to, being given it or being given None and having it as sys.stdout. At every moment the stream holds what it held before the calls followed by some text, and at every later moment it holds that and possibly more: nothing written is ever taken back or altered. If the dict, widths and specification given to pp() are what the modelled pp() prints, and the other threads are ready as in C68, then at every moment what has been written is an initial part of the text pp() prints according to the model (C26 to C29 say what that is), and all of it once the call has ended.", "quantifier": "any number of calls, all arguments, heaps, schedules, pairs of moments, set orders, interpreters", "why_tests_cant": "tests see the stream after pp() has returned; what a reader of the stream sees meanwhile, or after KeyboardInterrupt, depends on the moment and the schedule", "anchors": ["iso8583/tools.py:pp", "iso8583/tools.py:_pp_field", "iso8583/tools.py:_pprint_bytes", "iso8583/tools.py:_pprint_str"]}
{"id": "C71", "title": "After interrupted calls, calling again gives what the first call would have given", "statement": "Take any number of calls of decode(), encode() and pp() on any arguments, at the same time, and stop at any moment, leaving all of them where they are. Then the text of encode(), called with a dict that existed before, whether or not some interrupted call was encoding it, returns the bytes and the encoded dict that it would have returned for the dict as it was before the calls, and raises if it would have raised; the dict then still represents a dict with the same contents, bitmaps aside. The text of decode(), called with data that existed before, does what it would have done before. The text of pp(), called with a dict that no interrupted call was encoding, adds to the stream the whole text it would have printed before, after what the stream held and what interrupted calls of pp() had written to it, if any had it to print to. So a call that was interrupted can be repeated without restoring anything. The specification must not be among the dicts given to encode().", "quantifier": "any number of interrupted calls and arguments, moments, schedules, heaps, dicts, data and specifications, set orders, interpreters", "why_tests_cant": "the state left behind depends on which of many thousands of moments the interruption comes at and on what other threads had done by then", "anchors": ["iso8583/encoder.py:encode", "iso8583/encoder.py:_encode_bitmap", "iso8583/decoder.py:decode", "iso8583/tools.py:pp"]}
