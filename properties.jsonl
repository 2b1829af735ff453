{"id": "C01", "title": "Length prefixes round-trip", "statement": "The variable-length size prefix written in front of a long string, long data blob or large collection is read back as exactly the same number, consuming exactly the bytes that were written, whatever follows it in the buffer.", "quantifier": "every 64-bit length and every continuation of the buffer", "why_tests_cant": "2^64 values; the existing test samples four", "anchors": ["src/value/varint.rs: read, write, size_required"]}
{"id": "C02", "title": "Unsigned integers round-trip", "statement": "Writing a u64/u32/usize to the encoder and reading the element back with to_unsigned_int gives the number written.", "quantifier": "every u64, u32 and usize value", "why_tests_cant": "2^64 values; the byte count depends on the bit pattern, not on the magnitude", "anchors": ["src/encoder/encodable.rs: impl Encodable for u64, u32, usize", "src/value/mod.rs: to_int, to_unsigned_int"]}
{"id": "C03", "title": "Signed integers round-trip", "statement": "Writing an i64/i32/isize to the encoder returns, and reading the element back with to_int gives the number written.", "quantifier": "every i64, i32 and isize value", "why_tests_cant": "2^64 values; a failing value either is silently changed or never returns", "anchors": ["src/encoder/encodable.rs: impl Encodable for i64, i32, isize, i16"]}
{"id": "C04", "title": "Small integer types round-trip", "statement": "Writing a u8, i8, u16 or i16 returns without panicking and reads back as the number written.", "quantifier": "every value of each of the four types", "why_tests_cant": "tests only use a handful of small literals", "anchors": ["src/encoder/encodable.rs: impl Encodable for u8, i8, u16, i16"]}
{"id": "C05", "title": "Floats round-trip bit-exactly", "statement": "An f64 written to the encoder is read back by to_double with identical bits; an f32 is read back by to_float with identical bits (NaN payload quieting excepted).", "quantifier": "every f32 and f64 bit pattern", "why_tests_cant": "2^64 bit patterns, including subnormals, infinities and signed zeros", "anchors": ["src/encoder/encodable.rs: impl Encodable for f32, f64", "src/value/mod.rs: to_double, to_float"]}
{"id": "C06", "title": "Strings and data round-trip inside collections", "statement": "A string (or byte blob) written into an array or dict is read back as a value of the same type with identical contents.", "quantifier": "every UTF-8 string and every byte string, in narrow and wide collections", "why_tests_cant": "unbounded lengths; four length classes times two collection widths", "anchors": ["src/encoder/encodable.rs: write_fleece_string, impl Encodable for SizedValue", "src/value/mod.rs: _get_data, to_str, to_data"]}
{"id": "C07", "title": "Encode/decode round-trip of whole documents", "statement": "If every encoder call succeeds, the finished bytes are accepted by Value::from_bytes and reading the root back through the public accessors yields exactly the tree of values the calls described (dicts up to key order).", "quantifier": "every finite sequence of encoder calls, every nesting depth, every size below the 1 GiB pointer limit", "why_tests_cant": "infinitely many call sequences; failures occur only at particular byte distances", "anchors": ["src/encoder/mod.rs: Encoder", "src/value/mod.rs: Value::from_bytes", "src/value/array.rs: Iter", "src/value/dict.rs: IntoIterator"]}
{"id": "C08", "title": "Encoder output is always valid Fleece", "statement": "Whatever sequence of successful calls is made, finish() returns bytes that Value::from_bytes accepts.", "quantifier": "every sequence of successful encoder calls", "why_tests_cant": "failures need specific layouts (offset distance just above 16383 bytes)", "anchors": ["src/encoder/mod.rs: end_array, end_dict, _array_should_be_wide, _dict_should_be_wide", "src/value/array.rs: validate"]}
{"id": "C09", "title": "Dict lookup finds every written key and nothing else", "statement": "After encoding a dict with distinct keys, Dict::get(k) returns the value written under k for every written key and None for every other key.", "quantifier": "every set of distinct keys, every queried string, every dict size", "why_tests_cant": "binary search correctness depends on agreement of two comparison functions over all key pairs", "anchors": ["src/value/dict.rs: Dict::get, _get", "src/value/mod.rs: dict_key_cmp", "src/encoder/mod.rs: Encoder::dict_key_cmp, end_dict"]}
{"id": "C10", "title": "Dict lookup never returns a value stored under a different key", "statement": "On any data accepted by from_bytes (even with unsorted or duplicated keys), if Dict::get(k) returns a value, that value is stored in the dict next to a key equal to k.", "quantifier": "every byte string accepted by from_bytes and every key", "why_tests_cant": "quantifies over adversarial inputs", "anchors": ["src/value/dict.rs: _get", "src/value/mod.rs: dict_key_cmp"]}
{"id": "C11", "title": "Encoded dicts are sorted", "statement": "Iterating an encoded dict yields the keys in the order integer (shared) keys first, then strings in byte order, and every pair written appears exactly once.", "quantifier": "every encoded dict", "why_tests_cant": "all permutations of all key sets", "anchors": ["src/encoder/mod.rs: end_dict, dict_key_cmp"]}
{"id": "C12", "title": "Call protocol", "statement": "Each encoder call succeeds exactly when the grammar allows it: values and nested collections need an open array or a dict with a pending key; keys need an open dict with no pending key; end_array/end_dict need the matching collection on top (no pending key); only one top-level collection. The error returned names the violated rule.", "quantifier": "every encoder state reachable by any call sequence, every next call", "why_tests_cant": "unbounded call histories", "anchors": ["src/encoder/mod.rs: write_key, write_value, begin_array, end_array, begin_dict, end_dict", "src/encoder/value_stack.rs"]}
{"id": "C13", "title": "A failing call does not damage the document", "statement": "If an encoder call returns Err, continuing (and finishing) produces the same document as if the call had not been made.", "quantifier": "every reachable encoder state and every failing call", "why_tests_cant": "must hold for all states and continuations", "anchors": ["src/encoder/mod.rs: end_array, _write_key_pointer, write_value", "src/encoder/value_stack.rs: CollectionStack::pop"]}
{"id": "C14", "title": "finish closes open collections", "statement": "finish() on an encoder with open collections produces the document obtained by dropping dangling keys and closing every collection from the innermost outwards.", "quantifier": "every reachable encoder state (any nesting depth)", "why_tests_cant": "unbounded nesting", "anchors": ["src/encoder/mod.rs: _end, finish"]}
{"id": "C15", "title": "Encoder output is always evenly sized and aligned", "statement": "The encoder output always has even length, every value is written at an even offset, and all pointers are even.", "quantifier": "every call sequence", "why_tests_cant": "unbounded histories", "anchors": ["src/encoder/mod.rs: _write"]}
{"id": "C16", "title": "Appending to an existing buffer", "statement": "An encoder created with new_to_vec(prefix) produces prefix followed by a document which decodes to the same tree as without the prefix.", "quantifier": "every prefix and every call sequence", "why_tests_cant": "arbitrary prefix lengths (including odd ones)", "anchors": ["src/encoder/mod.rs: new_to_vec"]}
{"id": "C17", "title": "from_bytes never panics on untrusted input", "statement": "Value::from_bytes returns Ok or Err for every byte string; it never panics.", "quantifier": "every byte string", "why_tests_cant": "infinite adversarial input space", "anchors": ["src/value/mod.rs: from_bytes, _find_root, _validate, required_size, _get_data", "src/value/pointer.rs: deref_checked", "src/value/array.rs: validate"]}
{"id": "C18", "title": "from_bytes never reads outside the input", "statement": "Value::from_bytes never reads memory outside the byte slice it is given.", "quantifier": "every byte string, at every address, in debug and release builds", "why_tests_cant": "memory safety over adversarial inputs, integer overflow in release builds", "anchors": ["src/value/mod.rs: from_bytes, _validate, _from_raw", "src/value/pointer.rs: deref_checked", "src/value/array.rs: validate"]}
{"id": "C19", "title": "from_bytes terminates", "statement": "Value::from_bytes returns after finitely many steps for every input: pointer chains and nested collections cannot loop.", "quantifier": "every byte string", "why_tests_cant": "self-referential inputs; termination is not testable", "anchors": ["src/value/pointer.rs: deref_checked", "src/value/mod.rs: _validate", "src/value/array.rs: validate"]}
{"id": "C20", "title": "Navigation of accepted data stays in bounds", "statement": "Starting from a root accepted by from_bytes, following any path of array/dict iteration and indexing below len and calling value accessors never reads outside the input.", "quantifier": "every accepted byte string and every navigation path", "why_tests_cant": "adversarial inputs times unbounded paths", "anchors": ["src/value/array.rs: get_unchecked, Iter", "src/value/pointer.rs: deref_unchecked", "src/value/dict.rs: Iter, _get_unchecked"]}
{"id": "C21", "title": "Accessors of accepted data never panic", "statement": "For every value reachable from a root accepted by from_bytes, the accessors to_bool, to_short, to_unsigned_short, to_int, to_double, to_data, to_str, len and iteration do not panic.", "quantifier": "every accepted byte string and every reachable value", "why_tests_cant": "adversarial inputs (pointer chains)", "anchors": ["src/value/mod.rs: to_double, to_int, to_str", "src/value/pointer.rs: deref_checked"]}
{"id": "C22", "title": "Array::get is None exactly out of range", "statement": "Array::get(i) returns Some for i < len and None for every i >= len.", "quantifier": "every accepted array and every index", "why_tests_cant": "boundary index for every length", "anchors": ["src/value/array.rs: get"]}
{"id": "C23", "title": "Array iteration agrees with indexing", "statement": "Iterating an accepted array yields exactly len values, the i-th being get(i), and the iterator's size_hint equals the number of values still to come at every step.", "quantifier": "every accepted array and every iterator state", "why_tests_cant": "all lengths, widths and pointer layouts", "anchors": ["src/value/array.rs: Iter::next, size_hint, get_unchecked"]}
{"id": "C24", "title": "Checked and unchecked decoding agree", "statement": "On any data that from_bytes accepts, from_bytes_unchecked returns the same root value.", "quantifier": "every accepted byte string", "why_tests_cant": "adversarial inputs", "anchors": ["src/value/mod.rs: from_bytes_unchecked", "src/value/pointer.rs: deref_unchecked"]}
{"id": "C25", "title": "from_bytes rejects malformed roots", "statement": "Empty or odd-length input is rejected as InputIncorrectlySized; input longer than two bytes whose last two bytes are not a pointer is rejected as RootNotPointer; a pointer of offset zero or leading before the start of the data is rejected.", "quantifier": "every byte string", "why_tests_cant": "all inputs", "anchors": ["src/value/mod.rs: _find_root", "src/value/pointer.rs: deref_checked"]}
{"id": "C26", "title": "Short integers are sign-extended", "statement": "A 12-bit short holding n reads back as n through to_short and to_int for every n in -2048..2047, and through to_unsigned_short as n modulo 2^16.", "quantifier": "all 4096 short values", "why_tests_cant": "conversion semantic for each sign", "anchors": ["src/value/mod.rs: to_short, to_unsigned_short, _get_short"]}
{"id": "C27", "title": "Fixed-width signed integers read with their sign", "statement": "A signed Int value stored in k bytes reads back through to_int as the signed number those bytes encode.", "quantifier": "every byte count 1..8 and every byte pattern", "why_tests_cant": "2^64 patterns times widths", "anchors": ["src/value/mod.rs: to_int"]}
{"id": "C28", "title": "Numeric accessor conversions", "statement": "to_bool is false exactly for false and for numbers equal to zero after truncation, and accessors applied to a value of another type return the documented defaults (0, empty) rather than failing.", "quantifier": "every value of every type", "why_tests_cant": "all type/accessor combinations and all payloads", "anchors": ["src/value/mod.rs: to_bool, to_short, to_int, to_data, to_str"]}
{"id": "C29", "title": "Re-encoding a document preserves it", "statement": "write_fleece of any readable value into an open collection adds exactly that value: the finished document decodes to the same tree.", "quantifier": "every readable value", "why_tests_cant": "unbounded trees; integer classes that are re-encoded differently", "anchors": ["src/encoder/mod.rs: write_fleece"]}
{"id": "C30", "title": "Shared keys: encode and decode are inverse", "statement": "After encode_and_insert(k) returns i, decode(i) is k and encode(k) is i, and this stays so after any later insertions.", "quantifier": "every sequence of insertions and every key accepted", "why_tests_cant": "histories of up to 2048 insertions of arbitrary keys", "anchors": ["src/shared_keys.rs: encode, decode, encode_and_insert"]}
{"id": "C31", "title": "Shared keys: ids are dense and bounded", "statement": "Ids are assigned 0,1,2,... in insertion order, never exceed 2047, and re-inserting a key returns its existing id without growing the table.", "quantifier": "every sequence of insertions", "why_tests_cant": "all histories", "anchors": ["src/shared_keys.rs: encode_and_insert, can_add, len"]}
{"id": "C32", "title": "Shared keys: distinct keys get distinct ids", "statement": "Two different key strings are never given the same id, and encode(k) is None for every k that was never inserted.", "quantifier": "every pair of keys and every table", "why_tests_cant": "all pairs of strings", "anchors": ["src/shared_keys.rs: encode, encode_and_insert (zstr<16>)"]}
{"id": "C33", "title": "Shared keys: saved state restores the table", "statement": "from_state_bytes(get_state_bytes()) rebuilds a table with the same ids for the same keys.", "quantifier": "every table reachable by insertions", "why_tests_cant": "all tables up to 2048 keys", "anchors": ["src/shared_keys.rs: get_state_bytes, write_state, from_state_bytes, from_state_value"]}
{"id": "C34", "title": "Documents encoded with shared keys are readable with them", "statement": "A dict encoded with a SharedKeys table, when looked up or iterated with the table the encoder ended with, gives back every key that was written with its value.", "quantifier": "every initial table, every call sequence", "why_tests_cant": "interaction of key table capacity, key length and inlining", "anchors": ["src/encoder/mod.rs: _write_key", "src/value/dict.rs: encode_key, SharedKeyIter", "src/shared_keys.rs"]}
{"id": "C35", "title": "Mutable array behaves as a list", "statement": "push, set, remove, get, len, get_array, get_dict and iteration on a MutableArray behave as on an ordinary list of values, leaving all other positions unchanged; out-of-range remove is a no-op, out-of-range set panics.", "quantifier": "every sequence of operations", "why_tests_cant": "all histories", "anchors": ["src/mutable/array.rs"]}
{"id": "C36", "title": "Mutable dict behaves as a map", "statement": "insert, insert_dict, insert_array, remove, get, contains_key, len and iteration on a MutableDict behave as on an ordinary string-keyed map: operations on one key do not affect any other key.", "quantifier": "every sequence of operations, with or without shared keys", "why_tests_cant": "all histories and all key pairs", "anchors": ["src/mutable/dict.rs: encode_key, insert, remove, get"]}
{"id": "C37", "title": "Values stored in mutable collections read back", "statement": "A value inserted into a mutable collection reads back, through the accessor of its type, as the value inserted.", "quantifier": "every Encodable value", "why_tests_cant": "the inline/boxed boundary and all integer types", "anchors": ["src/mutable.rs: ValueSlot::new, value"]}
{"id": "C38", "title": "Copying Fleece data into a mutable collection preserves it", "statement": "MutableArray::clone_from / MutableDict::clone_from of readable data gives a mutable tree which reads back the same values at every path.", "quantifier": "every readable array or dict", "why_tests_cant": "unbounded trees", "anchors": ["src/mutable.rs: new_from_fleece", "src/mutable/array.rs: clone_from", "src/mutable/dict.rs: copy_with_shared_keys"]}
{"id": "C39", "title": "Mutable iterators report their remaining length", "statement": "The size_hint of a mutable array/dict iterator equals the number of items still to be yielded.", "quantifier": "every iterator state", "why_tests_cant": "every position in every collection", "anchors": ["src/mutable/array.rs: Iter::size_hint", "src/mutable/dict.rs: Iter::size_hint"]}
{"id": "C40", "title": "Scope lookup is sound", "statement": "Scope::containing(p) returns a scope only if that scope is alive and p lies within its data.", "quantifier": "every history of scope creation, drop and removal, every address reuse by the allocator", "why_tests_cant": "unbounded histories and allocator behaviours", "anchors": ["src/scope.rs: new, containing, remove, SCOPE_MAP"]}
{"id": "C41", "title": "Scope lookup is complete", "statement": "Every live scope that has not been removed is found from every address within its data.", "quantifier": "every history of scope creation, drop and removal", "why_tests_cant": "unbounded histories; overlapping stale ranges", "anchors": ["src/scope.rs: new, containing, remove"]}
{"id": "C42", "title": "Scope operations never poison the global map", "statement": "No call sequence of public API makes later scope operations panic.", "quantifier": "every history", "why_tests_cant": "a single bad call affects the entire process for ever", "anchors": ["src/scope.rs: SCOPE_MAP, new", "src/encoder/mod.rs: finish_scoped"]}
{"id": "C43", "title": "Serialization accepts exactly collections with string keys", "statement": "to_bytes of any serde value returns a document if the value is a sequence, map, struct, tuple or enum with string/char map keys, and otherwise the documented error (ValueNotCollection / KeyNotString); it never produces a document with dangling state.", "quantifier": "every serde value tree", "why_tests_cant": "unbounded trees", "anchors": ["src/ser.rs: to_bytes, Serializer, MapKeySerializer"]}
{"id": "C44", "title": "Serde round-trip", "statement": "Serializing a value and presenting the bytes to the Deserializer makes the visitor receive the same data (same sequence, map, string, number content) that was serialized.", "quantifier": "every serde value tree in the supported data model", "why_tests_cant": "unbounded trees", "anchors": ["src/ser.rs", "src/de.rs: deserialize_any, ArrayAccess, DictAccess"]}
{"id": "C45", "title": "Enum variants round-trip", "statement": "Unit, newtype, tuple and struct variants deserialize to the same variant name and payload.", "quantifier": "every enum value", "why_tests_cant": "all variant shapes and payloads", "anchors": ["src/ser.rs: serialize_*_variant", "src/de.rs: EnumAccess"]}
{"id": "C46", "title": "Newtype structs and unit structs round-trip", "statement": "A newtype struct or unit struct stored inside a collection deserializes back.", "quantifier": "every newtype/unit struct value", "why_tests_cant": "all inner types", "anchors": ["src/ser.rs: serialize_newtype_struct, serialize_unit_struct", "src/de.rs: forward_to_deserialize_any"]}
{"id": "C47", "title": "Oversized documents are reported, not corrupted", "statement": "When a value would need a pointer beyond the format's limit the encoder reports PointerTooLarge instead of panicking or writing a wrong pointer.", "quantifier": "every output size", "why_tests_cant": "needs multi-gigabyte outputs", "anchors": ["src/encoder/mod.rs: write_value, _finished_collection, _fix_pointer", "src/value/sized.rs: new_pointer"]}
{"id": "C48", "title": "SizedValue pointers round-trip", "statement": "The offset packed in a fixed-width pointer is read back exactly, and writing it narrow or wide and decoding it gives back the (even) offset.", "quantifier": "every offset up to the maximum", "why_tests_cant": "2^30 offsets, two widths", "anchors": ["src/value/sized.rs", "src/encoder/encodable.rs: impl Encodable for SizedValue", "src/value/pointer.rs: get_offset"]}
{"id": "C49", "title": "Empty collections and constants", "statement": "Array::empty()/Dict::empty() and Value::null/undefined/bool are valid values with the documented type, zero length and no elements.", "quantifier": "all constants", "why_tests_cant": "(finite) but relied on in every build mode", "anchors": ["src/value/array.rs: empty", "src/value/dict.rs: empty", "src/value/mod.rs: null, undefined, bool"]}
{"id": "C50", "title": "Validation accepts only in-bounds values", "statement": "If from_bytes accepts the input then every array element and every pointer target reachable from the root lies within the input and strictly before the pointer that refers to it, so the accepted value is a finite tree.", "quantifier": "every accepted byte string", "why_tests_cant": "adversarial inputs", "anchors": ["src/value/array.rs: validate", "src/value/mod.rs: _validate"]}
{"id": "C51", "title": "Cloning a mutable collection gives an independent equal copy", "statement": "The clone of a mutable array or dict holds the same values at every path as the original, and every later program of calls has the same effect on it as on the original.", "quantifier": "every collection built by any sequence of operations", "why_tests_cant": "unbounded nesting and histories", "anchors": ["src/mutable.rs: impl Clone for ValueSlot", "src/mutable/array.rs: derive Clone", "src/mutable/dict.rs: impl Clone"]}
{"id": "C52", "title": "A document finished into a scope is read through the scope", "statement": "Encoder::finish_scoped makes a scope whose root is the document the calls describe; every address inside the document leads to this scope and to the encoder's SharedKeys, so that reading by address needs no table passed by hand, and all scopes made before are still found.", "quantifier": "every sequence of encoder calls, every history of other scopes, every address", "why_tests_cant": "unbounded documents, histories and placements", "anchors": ["src/encoder/mod.rs: finish_scoped", "src/scope.rs: new, containing, find_shared_keys, root"]}
{"id": "C53", "title": "Owned copies answer like the original", "statement": "Copying a document into owned memory (Value::clone_from_bytes and the owned Array and Dict) accepts exactly the data from_bytes accepts, with the same root, and every call that reads a value gives the same answer on the copy as on the original, wherever the copy is placed; turning an owned value into an owned array or dict succeeds exactly when it is one and keeps it.", "quantifier": "every byte string, every placement of the original and the copy, every value and every reading call", "why_tests_cant": "unbounded inputs and all addresses", "anchors": ["src/alloced.rs: Alloced, new, AllocedValue, to_array, to_dict", "src/value/mod.rs: clone_from_bytes, from_bytes", "src/value/array.rs: clone_from_bytes", "src/value/dict.rs: clone_from_bytes"]}
{"id": "C54", "title": "Checking a document takes work proportional to its size", "statement": "from_bytes, given any data, makes a number of validation steps that is at most proportional to the length of the data; on a document the encoder wrote it visits each value less than twice.", "quantifier": "every byte string, every document the encoder can write", "why_tests_cant": "adversarial inputs of every length", "anchors": ["src/value/mod.rs: from_bytes, _validate", "src/value/array.rs: validate", "src/value/pointer.rs: deref_checked"]}
{"id": "C55", "title": "Checking a document needs a bounded stack", "statement": "from_bytes, given any data, recurses to a depth that does not grow with the data, so that untrusted data cannot exhaust the stack.", "quantifier": "every byte string", "why_tests_cant": "adversarial inputs of every nesting depth", "anchors": ["src/value/mod.rs: from_bytes, _validate", "src/value/array.rs: validate", "src/value/pointer.rs: deref_checked"]}
{"id": "C56", "title": "Encoding is deterministic", "statement": "The answers of the encoder and the bytes it produces are a function of the calls made on it: they do not depend on how the unstable sort of the standard library orders what it leaves open.", "quantifier": "every sequence of encoder calls, every sorting routine with the guarantee of sort_unstable_by", "why_tests_cant": "all call sequences and all permitted sort behaviours", "anchors": ["src/encoder/mod.rs: end_dict, finish", "src/encoder/value_stack.rs: DictElement", "src/encoder/mod.rs: _write_key"]}
{"id": "C57", "title": "The views of a dict agree", "statement": "The length, the first entry, the iterator and its size_hint of a dict all show the same entries: iteration yields them in order, after k calls of next the size_hint is the length minus k, and an exhausted iterator stays exhausted.", "quantifier": "every accepted byte string and every dict that can be reached in it", "why_tests_cant": "all documents, hostile ones included", "anchors": ["src/value/dict.rs: len, first, iter, Iter, size_hint"]}
{"id": "C58", "title": "Finishing into a value", "statement": "Encoder::finish_value returns an owned value that holds exactly the bytes finish would have returned and reads as the document the calls describe, and it never panics.", "quantifier": "every sequence of accepted encoder calls, every address the copy is placed at, debug and release builds", "why_tests_cant": "all call sequences", "anchors": ["src/encoder/mod.rs: finish_value", "src/value/mod.rs: clone_from_bytes, clone_from_bytes_unchecked"]}
{"id": "C59", "title": "Mutable copies of a scope's document", "statement": "MutableArray::from_scope and MutableDict::from_scope (and the TryFrom conversions) succeed exactly when the scope's root is an array or a dict, and the copy shows the document's content and behaves under every sequence of calls like a list or map with that content.", "quantifier": "every scope, every document in it that mutable collections can hold, every program of calls on the copy", "why_tests_cant": "all documents, histories of scopes and programs", "anchors": ["src/mutable/array.rs: from_scope, TryFrom", "src/mutable/dict.rs: from_scope, copy_with_shared_keys, TryFrom, From<AllocedDict>", "src/scope.rs: root, shared_keys"]}
{"id": "C60", "title": "A root value outlives its scope", "statement": "The value returned by Scope::root owns the data: after the scope is removed or dropped it still reads as the same document.", "quantifier": "every document finished into a scope and every later history of scopes", "why_tests_cant": "all documents and all later histories", "anchors": ["src/scope.rs: root, remove, find_shared_keys", "src/value/dict.rs: get, iter"]}
{"id": "C61", "title": "Deserializing untrusted bytes stays in bounds and ends", "statement": "from_bytes::<T> of the serde support, given any bytes and any type T, never reads outside the buffer and always returns (or panics): the nesting of its calls is bounded by the size of the data.", "quantifier": "every byte string, every type (recursive ones included), debug and release builds", "why_tests_cant": "all inputs, hostile ones included, and all types", "anchors": ["src/de.rs: from_bytes, Deserializer, ArrayAccess, DictAccess, EnumAccess", "src/value/array.rs: get, Iter"]}
{"id": "C62", "title": "Deserializing untrusted bytes does not panic", "statement": "from_bytes::<T> of the serde support returns a value or an error for every accepted document, whatever the type T asked for.", "quantifier": "every accepted byte string, every type", "why_tests_cant": "all inputs and all types", "anchors": ["src/de.rs: deserialize_any, EnumAccess", "src/value/mod.rs: to_double", "src/value/dict.rs: contains_key"]}
{"id": "C63", "title": "Formatting a value for debugging is safe", "statement": "Formatting any value of an accepted document with {:?} ends, stays inside the buffer and does not panic.", "quantifier": "every accepted byte string and every value in it", "why_tests_cant": "all inputs", "anchors": ["src/value/mod.rs: Debug for Value", "src/value/array.rs: Debug for Array", "src/value/dict.rs: Debug for Dict"]}
{"id": "C64", "title": "Restoring a key table from untrusted bytes", "statement": "SharedKeys::from_state_bytes, given any bytes, stays inside them, ends and does not panic; it returns a table only for an array of strings that are valid keys, and that table is the one that inserting these keys in order would make.", "quantifier": "every byte string, debug and release builds", "why_tests_cant": "all inputs, hostile ones included", "anchors": ["src/shared_keys.rs: from_state_bytes, from_state_value"]}
{"id": "C65", "title": "Scopes used from several threads", "statement": "Calls to Scope::new, remove, containing and find_shared_keys, and copying and dropping of Arc<Scope>, from any number of threads give answers that the same calls would give if each took effect in one instant between its beginning and its end, in some order; the memory is always one that a single thread could have made. No set of calls can block each other for ever, and a call that has the lock gives it back after a number of its own steps that other threads cannot raise.", "quantifier": "every number of threads, every sequence of calls in each, every interleaving of their steps, including scopes dropped while others look them up or compare them", "why_tests_cant": "tests see a few schedules; races between dropping a scope and looking it up are rare", "anchors": ["src/scope.rs:Scope::new", "src/scope.rs:Scope::remove", "src/scope.rs:Scope::containing", "src/scope.rs:ScopeEntry::eq", "src/scope.rs:SCOPE_MAP"]}
{"id": "C66", "title": "Text handed out is text", "statement": "Every string the API returns (to_str, the keys of a dict iterator, decoded shared keys) is well-formed UTF-8: the stored bytes if they are well-formed, the empty string otherwise; inserting a key into a table never cuts it inside a character.", "quantifier": "every byte string and value in it, every history of inserted keys", "why_tests_cant": "all byte strings; a str that is not UTF-8 is undefined behaviour in Rust", "anchors": ["src/value/mod.rs: to_str", "src/value/dict.rs: DictIterator::next", "src/shared_keys.rs: encode_and_insert, decode"]}
{"id": "C67", "title": "Which keys are shared", "statement": "As long as the table is not full, a key goes into it exactly if it has at most 16 bytes and consists of letters, digits, '_' and '-'; an encoder with a table writes such a key (of two or more bytes) as a number and every other key as text.", "quantifier": "every text, every table history, every encoder state", "why_tests_cant": "all texts, including non-ASCII ones", "anchors": ["src/shared_keys.rs: can_add, can_encode, encode_and_insert", "src/encoder/mod.rs: write_key"]}
{"id": "C68", "title": "The fleece! macro builds the literal", "statement": "A value built with the fleece! macro is the dict or array written down, with exactly the keys and values of the literal; building it never reaches undefined behaviour.", "quantifier": "every literal: any nesting, any keys, any values", "why_tests_cant": "literals and runtime values of every shape and size", "anchors": ["src/lib.rs: fleece!"]}
{"id": "C69", "title": "The encoder always answers", "statement": "Every encoder call returns, with success or with an error, in whatever order calls are made; so does finishing, which gives no more bytes than the calls asked for. No call panics or hangs.", "quantifier": "every sequence of calls, well-formed or not, every value", "why_tests_cant": "unbounded call sequences, all values of all types", "anchors": ["src/encoder/mod.rs", "src/encoder/encodable.rs"]}
{"id": "C70", "title": "What iteration hands out stays valid while it is borrowed", "statement": "A key or value obtained by iterating a dict or a mutable dict can be read for as long as the compiler lets it be kept, i.e. as long as the owner it was borrowed from exists, whatever else is dropped meanwhile: the iterator, the scope, the shared keys. Nothing is freed while it is owned, and nothing is freed twice.", "quantifier": "every program of creating, copying and dropping scopes, owned values, shared keys, mutable dicts and iterators", "why_tests_cant": "histories of any length; a dangling reference usually still reads the right bytes", "anchors": ["src/value/dict.rs:SharedKeyIter", "src/mutable/dict.rs:Iter::decode_key", "src/scope.rs:Scope", "src/alloced.rs:Alloced"]}
{"id": "C71", "title": "from_bytes accepts exactly the well-formed documents", "statement": "Value::from_bytes returns Ok with a given root exactly if the bytes are a document with that root by the rules of the format: an even number of bytes that end in a pointer, pointers that lead backwards to a value, texts and collections that lie within their bounds, and all of that again for each slot. The answer does not depend on the build or on the address of the bytes.", "quantifier": "every byte string (in release builds: without length prefixes of 2^59 or more or of more than nine bytes)", "why_tests_cant": "infinite input space; a validator that is too strict or too lax passes tests on documents that the encoder wrote", "anchors": ["src/value/mod.rs:from_bytes, _find_root, _validate, required_size, _from_raw, _get_data", "src/value/pointer.rs:deref_checked", "src/value/array.rs:validate", "src/value/varint.rs:read"]}
{"id": "C72", "title": "is_mutable is false for the values of a document", "statement": "No value reached by navigation from the root of an accepted document, be it read in place or copied, says true to is_mutable.", "quantifier": "every accepted document, every buffer address, every value reached by any path", "why_tests_cant": "the answer is taken from the address of the value: tests read buffers that the allocator has aligned", "anchors": ["src/value/mod.rs: Value::is_mutable, Value::from_bytes", "src/value/pointer.rs: Pointer::deref_unchecked", "src/value/array.rs: Array::first_pos"]}
{"id": "C73", "title": "Owned values compare by identity", "statement": "Comparison of owned values is an equivalence and a total order that agree with each other; a clone equals its original; equal owned values are the same value of the same document; copies made separately are different.", "quantifier": "all owned values, all contents, all placements in memory", "why_tests_cant": "laws of an order hold for all triples; addresses differ between runs", "anchors": ["src/alloced.rs: Alloced::eq, Alloced::cmp, Alloced::clone", "src/value/mod.rs: Value::clone_from_bytes"]}
{"id": "C74", "title": "What a small document is read back as is exactly predictable", "statement": "In a document of at most 16383 bytes whose keys have at least two bytes, every value reads back as a value that depends on it alone: numbers the encoder stores whole, and texts and blobs of two bytes or more, as themselves; other signed numbers as their low 16 bits, other unsigned numbers without some high bytes, texts of at most one byte as a number, empty blobs as zero. Nothing else in the document is affected, and calls are answered as if nothing had been lost.", "quantifier": "all call sequences whose values are accepted by the encoder (blobs of one byte excepted), all sizes up to 16383 bytes, all prefixes, both build modes, every placement of the buffer, every stable or unstable sort", "why_tests_cant": "tests write a few values; that no value disturbs another holds for all sequences", "anchors": ["src/encoder/mod.rs: Encoder::write_value, Encoder::end_array, Encoder::end_dict", "src/encoder/encodable.rs: SizedValue::write_fleece_to, i64::to_sized_value, u64::write_fleece_to"]}
{"id": "C75", "title": "A document below 128 KiB is either intact or refused", "statement": "When a sequence of encoder calls succeeds and asks for less than 128 KiB, the finished bytes either read back as the document that was built, or are refused by the checked reader; the checked reader never accepts such a document with something missing or changed.", "quantifier": "all call sequences with values the encoder stores whole and texts and keys of at least two bytes, all prefixes, all shapes of collections, both build modes, every placement of the buffer, every sort", "why_tests_cant": "whether a pointer still fits its slot depends on the sizes of everything written before; tests sample a few sizes", "anchors": ["src/encoder/mod.rs: Encoder::end_array, Encoder::end_dict, Encoder::_array_should_be_wide, Encoder::_dict_should_be_wide", "src/value/mod.rs: Value::_validate", "src/value/pointer.rs: Pointer::deref_checked"]}
{"id": "C76", "title": "Numeric accessors convert numbers as casts do", "statement": "to_int, to_unsigned_int, to_short, to_unsigned_short, to_float, to_double and to_bool of a stored number give that number converted to the type asked for: the fraction of a float is cut off, a float out of range gives the nearest bound and NaN gives 0; integers keep their low bits; conversion to a float gives the nearest one, the even one of two, and does not change a number the type can hold.", "quantifier": "every stored float, integer and boolean, all bit patterns, NaN and infinities included", "why_tests_cant": "2^64 bit patterns per accessor; rounding and range edges are where conversions go wrong", "anchors": ["src/value/mod.rs: to_int, to_unsigned_int, to_short, to_unsigned_short, to_float, to_double, to_bool"]}
{"id": "C77", "title": "Typed constructors, indexing and yes/no questions agree with reading", "statement": "Array::from_bytes and Dict::from_bytes (and clone_from_bytes) succeed exactly if Value::from_bytes does and the root is an array or a dict, with the same value, and otherwise give its error or IsNotArray / IsNotDict. contains_key is true exactly if get finds a value; indexing gives the value that get gives and panics if there is none; is_empty is true exactly if there are no elements or entries.", "quantifier": "every byte string, every value, key and index", "why_tests_cant": "all documents, hostile ones included", "anchors": ["src/value/array.rs: from_bytes, clone_from_bytes, index, is_empty", "src/value/dict.rs: from_bytes, clone_from_bytes, contains_key, contains_key_with_shared_keys, index, is_empty"]}
{"id": "C78", "title": "Whatever a debug build returns, a release build returns", "statement": "A call that returns in a debug build (overflow checks and debug assertions on) returns the same in a release build: opening documents, every accessor, iteration and lookup, whole documents read, every sequence of encoder calls with its bytes, the fleece! macro, mutable collections and copies, serializing and deserializing, saving and restoring key tables. The converse does not hold: where a debug build panics a release build may go on with a wrapped number.", "quantifier": "all bytes at all addresses, all values, all sequences of calls, all types", "why_tests_cant": "tests run in one of the two build modes", "anchors": ["Cargo.toml", "src/value/mod.rs", "src/value/array.rs", "src/value/dict.rs", "src/encoder/mod.rs", "src/encoder/encodable.rs", "src/value/varint.rs"]}
{"id": "C79", "title": "Every key that iteration shows is found by get", "statement": "For every dict of a document that from_bytes accepted, whoever wrote it: get (and get_with_shared_keys) answers for every key, with the value that iteration shows for this key, and with nothing exactly for the keys that iteration does not show.", "quantifier": "all accepted byte strings, all dicts in them, all keys, with and without a key table", "why_tests_cant": "the documents of the tests are written by the crate's own encoder, and the search takes different branches for every number of entries", "anchors": ["src/value/dict.rs: get, get_with_shared_keys, _get, encode_key, uses_shared_keys, Iter", "src/value/mod.rs: dict_key_cmp", "src/shared_keys.rs: encode, decode"]}
{"id": "C80", "title": "Bytes around a document make no difference", "statement": "An accepted document is accepted, with the same root, when an even number of other bytes lies in front of it, at any address; and every call that returns something on a value of the document (accessors, indexing, iteration, lookup, deserializing, copying, restoring a key table) returns the same when the document is part of a larger buffer, whatever the bytes before and after it are.", "quantifier": "every accepted document, every value, every bytes before and after, every address, every reading call", "why_tests_cant": "unbounded inputs; a test sees one neighbourhood, while an out-of-bounds read or a wrong base only shows with particular neighbours", "anchors": ["src/value/mod.rs from_bytes", "src/value/pointer.rs deref_checked deref_unchecked", "src/value/array.rs get iter validate", "src/value/dict.rs get", "src/de.rs from_bytes", "src/encoder/mod.rs new_to_vec write_fleece"]}
{"id": "C81", "title": "Copying is determined by content and settles", "statement": "What write_fleece writes depends only on what the source value reads as, not on the layout, address or build it is read from; the copy of a document whose dicts are in key order reads as exactly that document and, copied again, gives the same bytes; any other document settles after the second copy. A document without shared or repeated keys reads back as the one tree that has every dict in key order.", "quantifier": "every readable source value, every encoder state, every layout and address, every sequence of calls", "why_tests_cant": "unbounded documents and layouts; a test compares a few copies", "anchors": ["src/encoder/mod.rs write_fleece write_value end_dict finish", "src/value/mod.rs from_bytes", "src/encoder/encodable.rs to_sized_value"]}
{"id": "C82", "title": "Documents take predictable space", "statement": "The length of the output after any calls, and of the finished document, is what plain arithmetic on the calls predicts. A document without shared keys takes two bytes per slot (an element, a key or a value), a header per collection, the padded bytes of the values and keys that do not fit a slot, and a two-byte root, as long as it is small; in general between that and the same with four-byte slots and a six-byte root. The order of dict entries makes no difference.", "quantifier": "every sequence of calls, every prefix, documents of any size", "why_tests_cant": "unbounded sequences and contents; a waste of space or a byte too few is invisible to a test that only reads back", "anchors": ["src/encoder/mod.rs write_key write_value end_array end_dict finish", "src/encoder/encodable.rs fleece_size"]}
{"id": "C83", "title": "Debug output shows the contents", "statement": "Formatting a value with {:?} hands the formatter exactly what reading the value returns: every number, text and byte string, every element and every entry with its key, in order, at every depth; and it does so exactly for the values that can be read. So two values that look alike have the same contents, wherever they are stored and however wide their slots are, and a document that reads back as written is shown as written.", "quantifier": "every buffer, every value in it, every nesting depth", "why_tests_cant": "unbounded nesting and contents; the formatter goes through its own chain of conversions, separate from the reading functions the tests compare", "anchors": ["src/value/mod.rs impl Debug for Value", "src/value/array.rs impl Debug for Array", "src/value/dict.rs impl Debug for Dict"]}
{"id": "C84", "title": "Reading gives what the format says the bytes mean", "statement": "Whatever is read from any value of an accepted document (numbers, texts, binary data, elements and entries with their keys, at every depth) is what the Fleece format says the bytes there mean: two's complement integers, little-endian payloads, length prefixes, inline or pointed-to slots, numbered keys looked up in the table of shared keys. The same bytes never mean two things.", "quantifier": "every byte string that from_bytes accepts, every value reached in it, every table of shared keys, every nesting depth", "why_tests_cant": "unbounded contents and nesting; reading back what the library wrote cannot show a mistake that the writing and the reading code share, and documents of other implementations use encodings this one never writes", "anchors": ["src/value/mod.rs Value::to_int", "src/value/mod.rs Value::to_double", "src/value/mod.rs Value::to_str", "src/value/mod.rs Value::_get_data", "src/value/array.rs Iter", "src/value/dict.rs Iter", "src/value/pointer.rs"]}
{"id": "C85", "title": "What is written means, by the format, what was put in", "statement": "The bytes that finish returns are a document as the Fleece format defines it, and what the format says they mean is the tree that the calls described, so that a reader of the format by someone else gets it too.", "quantifier": "every sequence of calls that all succeed, every value, every prefix already in the output, every table of shared keys, every nesting depth", "why_tests_cant": "unbounded call sequences; a test that writes and reads back with the same library cannot see a mistake that both sides share", "anchors": ["src/encoder/mod.rs Encoder::finish", "src/encoder/mod.rs Encoder::write_value", "src/encoder/encodable.rs Encodable::write_fleece_to", "src/encoder/value_stack.rs"]}
{"id": "C86", "title": "Comparing scopes", "statement": "Two scopes are equal if and only if they hold the same data at the same place in memory, whatever was created, removed or dropped before; the comparison is an equivalence; the scope found for an address within the data of a scope is equal to that scope; a scope with memory of its own is equal to no other.", "quantifier": "every history of creating, removing and dropping scopes, every placement by the allocator including reuse of memory and sharing of one Arc", "why_tests_cant": "unbounded histories; whether addresses are compared that were reused depends on the allocator", "anchors": ["src/scope.rs Scope::eq", "src/scope.rs ScopeEntry::eq", "src/scope.rs Scope::containing"]}
{"id": "C87", "title": "Iterating over shared keys lists every key once, with its number", "statement": "Iterating over a table of shared keys yields exactly the pairs of a key and its number that encode and decode agree on, each key once and as many as len says; a pair once listed stays listed whatever is inserted later; inserting the listed keys into a new table gives a table with the same keys, numbered in the order of the list.", "quantifier": "every history of insertions, every order in which the underlying map iterates", "why_tests_cant": "unbounded histories; the order of the map's iteration is not the library's to choose", "anchors": ["src/shared_keys.rs SharedKeys::iter", "src/shared_keys.rs SharedKeys::into_iter", "src/shared_keys.rs Iter::next", "src/shared_keys.rs SharedKeys::default"]}
{"id": "C88", "title": "Dict lookup looks at logarithmically many entries", "statement": "Looking a key up in a dict of n entries looks at no more than log2(n) + 1 of them, none twice and none outside the dict, whether or not the key is there and whether or not the dict is sorted; the search always ends.", "quantifier": "every buffer, every dict in it, every key, with and without shared keys, both build profiles", "why_tests_cant": "dicts of any size; a search that degenerates to a linear or endless one gives the same answers on small dicts", "anchors": ["src/value/dict.rs Dict::_get", "src/value/dict.rs Dict::get", "src/value/dict.rs Dict::get_with_shared_keys"]}
{"id": "C89", "title": "No reference or pointer outside the buffer is ever made", "statement": "While bytes are checked, and while an accepted document is read by index below the length, by iteration, by either form of dict lookup or by the first entry of a dict, no reference to memory outside the buffer is made and no pointer outside it is computed - not merely no byte outside it read.", "quantifier": "every buffer at every address, every value reachable in an accepted document, every index and key, both build profiles", "why_tests_cant": "making a stray reference is undefined behaviour even if it is never read; it leaves no trace in a test", "anchors": ["src/value/mod.rs Value::_from_raw", "src/value/mod.rs Value::_from_raw_unchecked", "src/value/mod.rs Value::_offset_unchecked", "src/value/pointer.rs Pointer::deref_checked", "src/value/pointer.rs Pointer::deref_unchecked", "src/value/array.rs Array::validate"]}
{"id": "C90", "title": "Documents sharing a growing key table stay readable, also after a restart", "statement": "When documents are written one after the other, each encoder being given the key table the previous one left, every one of them can be read with the table as it is at the end, and with the table restored from its saved state: every path of indices and keys leads to what was written there, keys that were not written are not found, and iteration yields the entries. Writing can go on with the restored table.", "quantifier": "every series of documents of any length, every point at which the table is saved and restored, both build profiles, every address", "why_tests_cant": "the property is about histories: a later document may change the table under an earlier one", "anchors": ["src/encoder/mod.rs Encoder::set_shared_keys", "src/encoder/mod.rs Encoder::finish_scoped", "src/shared_keys.rs SharedKeys::encode_and_insert", "src/shared_keys.rs SharedKeys::get_state_bytes", "src/shared_keys.rs SharedKeys::from_state_bytes", "src/value/dict.rs Dict::encode_key"]}
{"id": "C91", "title": "A value is determined by the bytes it occupies, and its sizes agree", "statement": "A value that is neither a collection nor a pointer is determined by the bytes it occupies: wherever the same bytes are found, in either build and whatever surrounds them, every accessor answers and answers the same. The size reported when reading is the number of these bytes, lies within the document, and is the size that was announced before writing and the number of bytes written.", "quantifier": "every buffer and every position in it, every pair of places with the same bytes, every value reached in an accepted document, every value written", "why_tests_cant": "a test reads a value in one or two surroundings; the property is about all the bytes that must not matter", "anchors": ["src/value/mod.rs Value::required_size", "src/value/mod.rs Value::_get_data", "src/value/mod.rs Value::to_int", "src/value/mod.rs Value::to_double", "src/value/mod.rs Value::to_str", "src/encoder/encodable.rs Encodable::fleece_size", "src/encoder/encodable.rs Encodable::write_fleece_to"]}
{"id": "C92", "title": "The order in which dict entries are written makes no difference", "statement": "Two programs that write the same content but write the entries of their dicts in a different order, on any level, produce documents that read as exactly the same content: iterated in the same order, with the same value for every key. The configuration of the encoders, what they were given to append to, and where and in which build the documents are read make no difference either.", "quantifier": "every pair of series of encoder calls that describe the same content up to the order of entries, all encoder configurations, prefixes, addresses and builds", "why_tests_cant": "a dict of n entries can be written in n! orders, on every level, and a test tries a few of them", "anchors": ["src/encoder/mod.rs Encoder::write_key", "src/encoder/mod.rs Encoder::end_dict", "src/encoder/mod.rs Encoder::dict_key_cmp", "src/value/dict.rs DictIterator", "src/value/dict.rs Dict::get"]}
{"id": "C93", "title": "A document can be read, changed and written again", "statement": "A document that is copied into a mutable array or dict, changed by any series of calls, and written with an encoder, element by element and entry by entry, is the old document with exactly those changes made to it: every call succeeds, and the new bytes read as the changed content. It makes no difference whether the old document was read with shared keys or the new one is written with them, and everything the changes do not touch is as it was. The same holds for collections that start out empty.", "quantifier": "all source documents, all programs of mutable calls at any depth, all encoder configurations, all shared key tables, all addresses and builds", "why_tests_cant": "the behaviour of the whole depends on every combination of content, changes and layout, across four parts of the library", "anchors": ["src/mutable.rs ValueSlot::new_from_fleece", "src/mutable/array.rs MutableArray::iter", "src/mutable/dict.rs MutableDict::iter", "src/encoder/mod.rs Encoder::write_fleece", "src/encoder/mod.rs Encoder::finish"]}
{"id": "C94", "title": "Deserializing depends only on the content of a document", "statement": "Two documents that read as the same content deserialize to the same result, be it a value or the same error, however they are laid out: with narrow or wide collections, values in line or behind pointers, keys as texts or as shared numbers, numbers and floats in any of their encodings, at other addresses and in other builds.", "quantifier": "all pairs of accepted documents with the same content, whoever wrote them, all shared key tables, all addresses and builds, all types, all nesting bounds", "why_tests_cant": "it relates every two layouts of the same content, and content and types are nested to any depth", "anchors": ["src/de.rs from_bytes", "src/de.rs Deserializer", "src/de.rs ArrayAccess", "src/de.rs DictAccess"]}
{"id": "C95", "title": "A struct is read by the names of its fields", "statement": "What a dict deserializes to as a struct depends only on the entries named after the fields: their order, any other entries beside them, and whether an optional field is null or left out make no difference.", "quantifier": "all pairs of accepted documents with the same entries for the fields, whoever wrote them and however laid out, all struct types, all other entries of any content and nesting", "why_tests_cant": "the entries that are passed over can be any values at all, in any number, order and depth of nesting", "anchors": ["src/de.rs from_bytes", "src/de.rs Deserializer::deserialize_struct", "src/de.rs Deserializer::deserialize_ignored_any", "src/de.rs DictAccess", "src/de.rs EnumAccess struct_variant"]}
{"id": "C96", "title": "What a document deserializes to is what it says", "statement": "A value obtained by deserializing a document is the content of the document taken as a value of the type asked for: integers are unchanged and in range or refused, floats are the nearest, texts and bytes are the same, elements and entries come in their order, and each field gets the entry of its name, or None if it is optional and there is none.", "quantifier": "all accepted documents, whoever wrote them and however laid out, all types, all nesting", "why_tests_cant": "it is about every content and every type, nested to any depth, including numbers converted between all kinds and widths", "anchors": ["src/de.rs from_bytes", "src/de.rs Deserializer::deserialize_any", "src/de.rs Deserializer::deserialize_option", "src/de.rs ArrayAccess", "src/de.rs DictAccess"]}
{"id": "C97", "title": "Content that fits a type deserializes into it", "statement": "A document whose content is a value of the type asked for is deserialized, not refused and without a panic. With C96: a document deserializes exactly when its content fits the type.", "quantifier": "all accepted documents, whoever wrote them and however laid out, all types, all nesting", "why_tests_cant": "tests show that some contents are accepted; this says that no content that fits is refused, whatever its layout, order of entries, additional entries and left out optional fields", "anchors": ["src/de.rs from_bytes", "src/de.rs Deserializer::deserialize_any", "src/de.rs Deserializer::deserialize_option", "src/de.rs ArrayAccess", "src/de.rs DictAccess"]}
