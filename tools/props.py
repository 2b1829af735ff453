#!/usr/bin/env python3
# Generates properties.jsonl (one JSON object per line).
import json
P=[]
def p(id,title,statement,quantifier,why,anchors):
    P.append(dict(id=id,title=title,statement=statement,quantifier=quantifier,why_tests_cant=why,anchors=anchors))

p("C01","Length prefixes round-trip","The variable-length size prefix written in front of a long string, long data blob or large collection is read back as exactly the same number, consuming exactly the bytes that were written, whatever follows it in the buffer.","every 64-bit length and every continuation of the buffer","2^64 values; the existing test samples four",["src/value/varint.rs: read, write, size_required"])
p("C02","Unsigned integers round-trip","Writing a u64/u32/usize to the encoder and reading the element back with to_unsigned_int gives the number written.","every u64, u32 and usize value","2^64 values; the byte count depends on the bit pattern, not on the magnitude",["src/encoder/encodable.rs: impl Encodable for u64, u32, usize","src/value/mod.rs: to_int, to_unsigned_int"])
p("C03","Signed integers round-trip","Writing an i64/i32/isize to the encoder returns, and reading the element back with to_int gives the number written.","every i64, i32 and isize value","2^64 values; a failing value either is silently changed or never returns",["src/encoder/encodable.rs: impl Encodable for i64, i32, isize, i16"])
p("C04","Small integer types round-trip","Writing a u8, i8, u16 or i16 returns without panicking and reads back as the number written.","every value of each of the four types","tests only use a handful of small literals",["src/encoder/encodable.rs: impl Encodable for u8, i8, u16, i16"])
p("C05","Floats round-trip bit-exactly","An f64 written to the encoder is read back by to_double with identical bits; an f32 is read back by to_float with identical bits (NaN payload quieting excepted).","every f32 and f64 bit pattern","2^64 bit patterns, including subnormals, infinities and signed zeros",["src/encoder/encodable.rs: impl Encodable for f32, f64","src/value/mod.rs: to_double, to_float"])
p("C06","Strings and data round-trip inside collections","A string (or byte blob) written into an array or dict is read back as a value of the same type with identical contents.","every UTF-8 string and every byte string, in narrow and wide collections","unbounded lengths; four length classes times two collection widths",["src/encoder/encodable.rs: write_fleece_string, impl Encodable for SizedValue","src/value/mod.rs: _get_data, to_str, to_data"])
p("C07","Encode/decode round-trip of whole documents","If every encoder call succeeds, the finished bytes are accepted by Value::from_bytes and reading the root back through the public accessors yields exactly the tree of values the calls described (dicts up to key order).","every finite sequence of encoder calls, every nesting depth, every size below the 1 GiB pointer limit","infinitely many call sequences; failures occur only at particular byte distances",["src/encoder/mod.rs: Encoder","src/value/mod.rs: Value::from_bytes","src/value/array.rs: Iter","src/value/dict.rs: IntoIterator"])
p("C08","Encoder output is always valid Fleece","Whatever sequence of successful calls is made, finish() returns bytes that Value::from_bytes accepts.","every sequence of successful encoder calls","failures need specific layouts (offset distance just above 16383 bytes)",["src/encoder/mod.rs: end_array, end_dict, _array_should_be_wide, _dict_should_be_wide","src/value/array.rs: validate"])
p("C09","Dict lookup finds every written key and nothing else","After encoding a dict with distinct keys, Dict::get(k) returns the value written under k for every written key and None for every other key.","every set of distinct keys, every queried string, every dict size","binary search correctness depends on agreement of two comparison functions over all key pairs",["src/value/dict.rs: Dict::get, _get","src/value/mod.rs: dict_key_cmp","src/encoder/mod.rs: Encoder::dict_key_cmp, end_dict"])
p("C10","Dict lookup never returns a value stored under a different key","On any data accepted by from_bytes (even with unsorted or duplicated keys), if Dict::get(k) returns a value, that value is stored in the dict next to a key equal to k.","every byte string accepted by from_bytes and every key","quantifies over adversarial inputs",["src/value/dict.rs: _get","src/value/mod.rs: dict_key_cmp"])
p("C11","Encoded dicts are sorted","Iterating an encoded dict yields the keys in the order integer (shared) keys first, then strings in byte order, and every pair written appears exactly once.","every encoded dict","all permutations of all key sets",["src/encoder/mod.rs: end_dict, dict_key_cmp"])
p("C12","Call protocol","Each encoder call succeeds exactly when the grammar allows it: values and nested collections need an open array or a dict with a pending key; keys need an open dict with no pending key; end_array/end_dict need the matching collection on top (no pending key); only one top-level collection. The error returned names the violated rule.","every encoder state reachable by any call sequence, every next call","unbounded call histories",["src/encoder/mod.rs: write_key, write_value, begin_array, end_array, begin_dict, end_dict","src/encoder/value_stack.rs"])
p("C13","A failing call does not damage the document","If an encoder call returns Err, continuing (and finishing) produces the same document as if the call had not been made.","every reachable encoder state and every failing call","must hold for all states and continuations",["src/encoder/mod.rs: end_array, _write_key_pointer, write_value","src/encoder/value_stack.rs: CollectionStack::pop"])
p("C14","finish closes open collections","finish() on an encoder with open collections produces the document obtained by dropping dangling keys and closing every collection from the innermost outwards.","every reachable encoder state (any nesting depth)","unbounded nesting",["src/encoder/mod.rs: _end, finish"])
p("C15","Encoder output is always evenly sized and aligned","The encoder output always has even length, every value is written at an even offset, and all pointers are even.","every call sequence","unbounded histories",["src/encoder/mod.rs: _write"])
p("C16","Appending to an existing buffer","An encoder created with new_to_vec(prefix) produces prefix followed by a document which decodes to the same tree as without the prefix.","every prefix and every call sequence","arbitrary prefix lengths (including odd ones)",["src/encoder/mod.rs: new_to_vec"])
p("C17","from_bytes never panics on untrusted input","Value::from_bytes returns Ok or Err for every byte string; it never panics.","every byte string","infinite adversarial input space",["src/value/mod.rs: from_bytes, _find_root, _validate, required_size, _get_data","src/value/pointer.rs: deref_checked","src/value/array.rs: validate"])
p("C18","from_bytes never reads outside the input","Value::from_bytes never reads memory outside the byte slice it is given.","every byte string, at every address, in debug and release builds","memory safety over adversarial inputs, integer overflow in release builds",["src/value/mod.rs: from_bytes, _validate, _from_raw","src/value/pointer.rs: deref_checked","src/value/array.rs: validate"])
p("C19","from_bytes terminates","Value::from_bytes returns after finitely many steps for every input: pointer chains and nested collections cannot loop.","every byte string","self-referential inputs; termination is not testable",["src/value/pointer.rs: deref_checked","src/value/mod.rs: _validate","src/value/array.rs: validate"])
p("C20","Navigation of accepted data stays in bounds","Starting from a root accepted by from_bytes, following any path of array/dict iteration and indexing below len and calling value accessors never reads outside the input.","every accepted byte string and every navigation path","adversarial inputs times unbounded paths",["src/value/array.rs: get_unchecked, Iter","src/value/pointer.rs: deref_unchecked","src/value/dict.rs: Iter, _get_unchecked"])
p("C21","Accessors of accepted data never panic","For every value reachable from a root accepted by from_bytes, the accessors to_bool, to_short, to_unsigned_short, to_int, to_double, to_data, to_str, len and iteration do not panic.","every accepted byte string and every reachable value","adversarial inputs (pointer chains)",["src/value/mod.rs: to_double, to_int, to_str","src/value/pointer.rs: deref_checked"])
p("C22","Array::get is None exactly out of range","Array::get(i) returns Some for i < len and None for every i >= len.","every accepted array and every index","boundary index for every length",["src/value/array.rs: get"])
p("C23","Array iteration agrees with indexing","Iterating an accepted array yields exactly len values, the i-th being get(i), and the iterator's size_hint equals the number of values still to come at every step.","every accepted array and every iterator state","all lengths, widths and pointer layouts",["src/value/array.rs: Iter::next, size_hint, get_unchecked"])
p("C24","Checked and unchecked decoding agree","On any data that from_bytes accepts, from_bytes_unchecked returns the same root value.","every accepted byte string","adversarial inputs",["src/value/mod.rs: from_bytes_unchecked","src/value/pointer.rs: deref_unchecked"])
p("C25","from_bytes rejects malformed roots","Empty or odd-length input is rejected as InputIncorrectlySized; input longer than two bytes whose last two bytes are not a pointer is rejected as RootNotPointer; a pointer of offset zero or leading before the start of the data is rejected.","every byte string","all inputs",["src/value/mod.rs: _find_root","src/value/pointer.rs: deref_checked"])
p("C26","Short integers are sign-extended","A 12-bit short holding n reads back as n through to_short and to_int for every n in -2048..2047, and through to_unsigned_short as n modulo 2^16.","all 4096 short values","conversion semantic for each sign",["src/value/mod.rs: to_short, to_unsigned_short, _get_short"])
p("C27","Fixed-width signed integers read with their sign","A signed Int value stored in k bytes reads back through to_int as the signed number those bytes encode.","every byte count 1..8 and every byte pattern","2^64 patterns times widths",["src/value/mod.rs: to_int"])
p("C28","Numeric accessor conversions","to_bool is false exactly for false and for numbers equal to zero after truncation, and accessors applied to a value of another type return the documented defaults (0, empty) rather than failing.","every value of every type","all type/accessor combinations and all payloads",["src/value/mod.rs: to_bool, to_short, to_int, to_data, to_str"])
p("C29","Re-encoding a document preserves it","write_fleece of any readable value into an open collection adds exactly that value: the finished document decodes to the same tree.","every readable value","unbounded trees; integer classes that are re-encoded differently",["src/encoder/mod.rs: write_fleece"])
p("C30","Shared keys: encode and decode are inverse","After encode_and_insert(k) returns i, decode(i) is k and encode(k) is i, and this stays so after any later insertions.","every sequence of insertions and every key accepted","histories of up to 2048 insertions of arbitrary keys",["src/shared_keys.rs: encode, decode, encode_and_insert"])
p("C31","Shared keys: ids are dense and bounded","Ids are assigned 0,1,2,... in insertion order, never exceed 2047, and re-inserting a key returns its existing id without growing the table.","every sequence of insertions","all histories",["src/shared_keys.rs: encode_and_insert, can_add, len"])
p("C32","Shared keys: distinct keys get distinct ids","Two different key strings are never given the same id, and encode(k) is None for every k that was never inserted.","every pair of keys and every table","all pairs of strings",["src/shared_keys.rs: encode, encode_and_insert (zstr<16>)"])
p("C33","Shared keys: saved state restores the table","from_state_bytes(get_state_bytes()) rebuilds a table with the same ids for the same keys.","every table reachable by insertions","all tables up to 2048 keys",["src/shared_keys.rs: get_state_bytes, write_state, from_state_bytes, from_state_value"])
p("C34","Documents encoded with shared keys are readable with them","A dict encoded with a SharedKeys table, when looked up or iterated with the table the encoder ended with, gives back every key that was written with its value.","every initial table, every call sequence","interaction of key table capacity, key length and inlining",["src/encoder/mod.rs: _write_key","src/value/dict.rs: encode_key, SharedKeyIter","src/shared_keys.rs"])
p("C35","Mutable array behaves as a list","push, set, remove, get, len, get_array, get_dict and iteration on a MutableArray behave as on an ordinary list of values, leaving all other positions unchanged; out-of-range remove is a no-op, out-of-range set panics.","every sequence of operations","all histories",["src/mutable/array.rs"])
p("C36","Mutable dict behaves as a map","insert, insert_dict, insert_array, remove, get, contains_key, len and iteration on a MutableDict behave as on an ordinary string-keyed map: operations on one key do not affect any other key.","every sequence of operations, with or without shared keys","all histories and all key pairs",["src/mutable/dict.rs: encode_key, insert, remove, get"])
p("C37","Values stored in mutable collections read back","A value inserted into a mutable collection reads back, through the accessor of its type, as the value inserted.","every Encodable value","the inline/boxed boundary and all integer types",["src/mutable.rs: ValueSlot::new, value"])
p("C38","Copying Fleece data into a mutable collection preserves it","MutableArray::clone_from / MutableDict::clone_from of readable data gives a mutable tree which reads back the same values at every path.","every readable array or dict","unbounded trees",["src/mutable.rs: new_from_fleece","src/mutable/array.rs: clone_from","src/mutable/dict.rs: copy_with_shared_keys"])
p("C39","Mutable iterators report their remaining length","The size_hint of a mutable array/dict iterator equals the number of items still to be yielded.","every iterator state","every position in every collection",["src/mutable/array.rs: Iter::size_hint","src/mutable/dict.rs: Iter::size_hint"])
p("C40","Scope lookup is sound","Scope::containing(p) returns a scope only if that scope is alive and p lies within its data.","every history of scope creation, drop and removal, every address reuse by the allocator","unbounded histories and allocator behaviours",["src/scope.rs: new, containing, remove, SCOPE_MAP"])
p("C41","Scope lookup is complete","Every live scope that has not been removed is found from every address within its data.","every history of scope creation, drop and removal","unbounded histories; overlapping stale ranges",["src/scope.rs: new, containing, remove"])
p("C42","Scope operations never poison the global map","No call sequence of public API makes later scope operations panic.","every history","a single bad call affects the entire process for ever",["src/scope.rs: SCOPE_MAP, new","src/encoder/mod.rs: finish_scoped"])
p("C43","Serialization accepts exactly collections with string keys","to_bytes of any serde value returns a document if the value is a sequence, map, struct, tuple or enum with string/char map keys, and otherwise the documented error (ValueNotCollection / KeyNotString); it never produces a document with dangling state.","every serde value tree","unbounded trees",["src/ser.rs: to_bytes, Serializer, MapKeySerializer"])
p("C44","Serde round-trip","Serializing a value and presenting the bytes to the Deserializer makes the visitor receive the same data (same sequence, map, string, number content) that was serialized.","every serde value tree in the supported data model","unbounded trees",["src/ser.rs","src/de.rs: deserialize_any, ArrayAccess, DictAccess"])
p("C45","Enum variants round-trip","Unit, newtype, tuple and struct variants deserialize to the same variant name and payload.","every enum value","all variant shapes and payloads",["src/ser.rs: serialize_*_variant","src/de.rs: EnumAccess"])
p("C46","Newtype structs and unit structs round-trip","A newtype struct or unit struct stored inside a collection deserializes back.","every newtype/unit struct value","all inner types",["src/ser.rs: serialize_newtype_struct, serialize_unit_struct","src/de.rs: forward_to_deserialize_any"])
p("C47","Oversized documents are reported, not corrupted","When a value would need a pointer beyond the format's limit the encoder reports PointerTooLarge instead of panicking or writing a wrong pointer.","every output size","needs multi-gigabyte outputs",["src/encoder/mod.rs: write_value, _finished_collection, _fix_pointer","src/value/sized.rs: new_pointer"])
p("C48","SizedValue pointers round-trip","The offset packed in a fixed-width pointer is read back exactly, and writing it narrow or wide and decoding it gives back the (even) offset.","every offset up to the maximum","2^30 offsets, two widths",["src/value/sized.rs","src/encoder/encodable.rs: impl Encodable for SizedValue","src/value/pointer.rs: get_offset"])
p("C49","Empty collections and constants","Array::empty()/Dict::empty() and Value::null/undefined/bool are valid values with the documented type, zero length and no elements.","all constants","(finite) but relied on in every build mode",["src/value/array.rs: empty","src/value/dict.rs: empty","src/value/mod.rs: null, undefined, bool"])
p("C50","Validation accepts only in-bounds values","If from_bytes accepts the input then every array element and every pointer target reachable from the root lies within the input and strictly before the pointer that refers to it, so the accepted value is a finite tree.","every accepted byte string","adversarial inputs",["src/value/array.rs: validate","src/value/mod.rs: _validate"])
p("C51","Cloning a mutable collection gives an independent equal copy","The clone of a mutable array or dict holds the same values at every path as the original, and every later program of calls has the same effect on it as on the original.","every collection built by any sequence of operations","unbounded nesting and histories",["src/mutable.rs: impl Clone for ValueSlot","src/mutable/array.rs: derive Clone","src/mutable/dict.rs: impl Clone"])
p("C52","A document finished into a scope is read through the scope","Encoder::finish_scoped makes a scope whose root is the document the calls describe; every address inside the document leads to this scope and to the encoder's SharedKeys, so that reading by address needs no table passed by hand, and all scopes made before are still found.","every sequence of encoder calls, every history of other scopes, every address","unbounded documents, histories and placements",["src/encoder/mod.rs: finish_scoped","src/scope.rs: new, containing, find_shared_keys, root"])
p("C53","Owned copies answer like the original","Copying a document into owned memory (Value::clone_from_bytes and the owned Array and Dict) accepts exactly the data from_bytes accepts, with the same root, and every call that reads a value gives the same answer on the copy as on the original, wherever the copy is placed; turning an owned value into an owned array or dict succeeds exactly when it is one and keeps it.","every byte string, every placement of the original and the copy, every value and every reading call","unbounded inputs and all addresses",["src/alloced.rs: Alloced, new, AllocedValue, to_array, to_dict","src/value/mod.rs: clone_from_bytes, from_bytes","src/value/array.rs: clone_from_bytes","src/value/dict.rs: clone_from_bytes"])
p("C54","Checking a document takes work proportional to its size","from_bytes, given any data, makes a number of validation steps that is at most proportional to the length of the data; on a document the encoder wrote it visits each value less than twice.","every byte string, every document the encoder can write","adversarial inputs of every length",["src/value/mod.rs: from_bytes, _validate","src/value/array.rs: validate","src/value/pointer.rs: deref_checked"])
p("C55","Checking a document needs a bounded stack","from_bytes, given any data, recurses to a depth that does not grow with the data, so that untrusted data cannot exhaust the stack.","every byte string","adversarial inputs of every nesting depth",["src/value/mod.rs: from_bytes, _validate","src/value/array.rs: validate","src/value/pointer.rs: deref_checked"])
p("C56","Encoding is deterministic","The answers of the encoder and the bytes it produces are a function of the calls made on it: they do not depend on how the unstable sort of the standard library orders what it leaves open.","every sequence of encoder calls, every sorting routine with the guarantee of sort_unstable_by","all call sequences and all permitted sort behaviours",["src/encoder/mod.rs: end_dict, finish","src/encoder/value_stack.rs: DictElement","src/encoder/mod.rs: _write_key"])
p("C57","The views of a dict agree","The length, the first entry, the iterator and its size_hint of a dict all show the same entries: iteration yields them in order, after k calls of next the size_hint is the length minus k, and an exhausted iterator stays exhausted.","every accepted byte string and every dict that can be reached in it","all documents, hostile ones included",["src/value/dict.rs: len, first, iter, Iter, size_hint"])
p("C58","Finishing into a value","Encoder::finish_value returns an owned value that holds exactly the bytes finish would have returned and reads as the document the calls describe, and it never panics.","every sequence of accepted encoder calls, every address the copy is placed at, debug and release builds","all call sequences",["src/encoder/mod.rs: finish_value","src/value/mod.rs: clone_from_bytes, clone_from_bytes_unchecked"])
p("C59","Mutable copies of a scope's document","MutableArray::from_scope and MutableDict::from_scope (and the TryFrom conversions) succeed exactly when the scope's root is an array or a dict, and the copy shows the document's content and behaves under every sequence of calls like a list or map with that content.","every scope, every document in it that mutable collections can hold, every program of calls on the copy","all documents, histories of scopes and programs",["src/mutable/array.rs: from_scope, TryFrom","src/mutable/dict.rs: from_scope, copy_with_shared_keys, TryFrom, From<AllocedDict>","src/scope.rs: root, shared_keys"])
p("C60","A root value outlives its scope","The value returned by Scope::root owns the data: after the scope is removed or dropped it still reads as the same document.","every document finished into a scope and every later history of scopes","all documents and all later histories",["src/scope.rs: root, remove, find_shared_keys","src/value/dict.rs: get, iter"])
p("C61","Deserializing untrusted bytes stays in bounds and ends","from_bytes::<T> of the serde support, given any bytes and any type T, never reads outside the buffer and always returns (or panics): the nesting of its calls is bounded by the size of the data.","every byte string, every type (recursive ones included), debug and release builds","all inputs, hostile ones included, and all types",["src/de.rs: from_bytes, Deserializer, ArrayAccess, DictAccess, EnumAccess","src/value/array.rs: get, Iter"])
p("C62","Deserializing untrusted bytes does not panic","from_bytes::<T> of the serde support returns a value or an error for every accepted document, whatever the type T asked for.","every accepted byte string, every type","all inputs and all types",["src/de.rs: deserialize_any, EnumAccess","src/value/mod.rs: to_double","src/value/dict.rs: contains_key"])
p("C63","Formatting a value for debugging is safe","Formatting any value of an accepted document with {:?} ends, stays inside the buffer and does not panic.","every accepted byte string and every value in it","all inputs",["src/value/mod.rs: Debug for Value","src/value/array.rs: Debug for Array","src/value/dict.rs: Debug for Dict"])
p("C64","Restoring a key table from untrusted bytes","SharedKeys::from_state_bytes, given any bytes, stays inside them, ends and does not panic; it returns a table only for an array of strings that are valid keys, and that table is the one that inserting these keys in order would make.","every byte string, debug and release builds","all inputs, hostile ones included",["src/shared_keys.rs: from_state_bytes, from_state_value"])
p("C65","Scopes used from several threads","Calls to Scope::new, remove, containing and find_shared_keys, and copying and dropping of Arc<Scope>, from any number of threads give answers that the same calls would give if each took effect in one instant between its beginning and its end, in some order; the memory is always one that a single thread could have made. No set of calls can block each other for ever, and a call that has the lock gives it back after a number of its own steps that other threads cannot raise.","every number of threads, every sequence of calls in each, every interleaving of their steps, including scopes dropped while others look them up or compare them","tests see a few schedules; races between dropping a scope and looking it up are rare",["src/scope.rs:Scope::new","src/scope.rs:Scope::remove","src/scope.rs:Scope::containing","src/scope.rs:ScopeEntry::eq","src/scope.rs:SCOPE_MAP"])
p("C66", "Text handed out is text", "Every string the API returns (to_str, the keys of a dict iterator, decoded shared keys) is well-formed UTF-8: the stored bytes if they are well-formed, the empty string otherwise; inserting a key into a table never cuts it inside a character.", "every byte string and value in it, every history of inserted keys", "all byte strings; a str that is not UTF-8 is undefined behaviour in Rust", ["src/value/mod.rs: to_str", "src/value/dict.rs: DictIterator::next", "src/shared_keys.rs: encode_and_insert, decode"])
p("C67", "Which keys are shared", "As long as the table is not full, a key goes into it exactly if it has at most 16 bytes and consists of letters, digits, '_' and '-'; an encoder with a table writes such a key (of two or more bytes) as a number and every other key as text.", "every text, every table history, every encoder state", "all texts, including non-ASCII ones", ["src/shared_keys.rs: can_add, can_encode, encode_and_insert", "src/encoder/mod.rs: write_key"])
p("C68", "The fleece! macro builds the literal", "A value built with the fleece! macro is the dict or array written down, with exactly the keys and values of the literal; building it never reaches undefined behaviour.", "every literal: any nesting, any keys, any values", "literals and runtime values of every shape and size", ["src/lib.rs: fleece!"])
p("C69", "The encoder always answers", "Every encoder call returns, with success or with an error, in whatever order calls are made; so does finishing, which gives no more bytes than the calls asked for. No call panics or hangs.", "every sequence of calls, well-formed or not, every value", "unbounded call sequences, all values of all types", ["src/encoder/mod.rs", "src/encoder/encodable.rs"])
p("C70", "What iteration hands out stays valid while it is borrowed", "A key or value obtained by iterating a dict or a mutable dict can be read for as long as the compiler lets it be kept, i.e. as long as the owner it was borrowed from exists, whatever else is dropped meanwhile: the iterator, the scope, the shared keys. Nothing is freed while it is owned, and nothing is freed twice.", "every program of creating, copying and dropping scopes, owned values, shared keys, mutable dicts and iterators", "histories of any length; a dangling reference usually still reads the right bytes", ["src/value/dict.rs:SharedKeyIter", "src/mutable/dict.rs:Iter::decode_key", "src/scope.rs:Scope", "src/alloced.rs:Alloced"])
p("C71", "from_bytes accepts exactly the well-formed documents", "Value::from_bytes returns Ok with a given root exactly if the bytes are a document with that root by the rules of the format: an even number of bytes that end in a pointer, pointers that lead backwards to a value, texts and collections that lie within their bounds, and all of that again for each slot. The answer does not depend on the build or on the address of the bytes.", "every byte string (in release builds: without length prefixes of 2^59 or more or of more than nine bytes)", "infinite input space; a validator that is too strict or too lax passes tests on documents that the encoder wrote", ["src/value/mod.rs:from_bytes, _find_root, _validate, required_size, _from_raw, _get_data", "src/value/pointer.rs:deref_checked", "src/value/array.rs:validate", "src/value/varint.rs:read"])
p("C72", "is_mutable is false for the values of a document", "No value reached by navigation from the root of an accepted document, be it read in place or copied, says true to is_mutable.", "every accepted document, every buffer address, every value reached by any path", "the answer is taken from the address of the value: tests read buffers that the allocator has aligned", ["src/value/mod.rs: Value::is_mutable, Value::from_bytes", "src/value/pointer.rs: Pointer::deref_unchecked", "src/value/array.rs: Array::first_pos"])
p("C73", "Owned values compare by identity", "Comparison of owned values is an equivalence and a total order that agree with each other; a clone equals its original; equal owned values are the same value of the same document; copies made separately are different.", "all owned values, all contents, all placements in memory", "laws of an order hold for all triples; addresses differ between runs", ["src/alloced.rs: Alloced::eq, Alloced::cmp, Alloced::clone", "src/value/mod.rs: Value::clone_from_bytes"])
p("C74", "What a small document is read back as is exactly predictable", "In a document of at most 16383 bytes whose keys have at least two bytes, every value reads back as a value that depends on it alone: numbers the encoder stores whole, and texts and blobs of two bytes or more, as themselves; other signed numbers as their low 16 bits, other unsigned numbers without some high bytes, texts of at most one byte as a number, empty blobs as zero. Nothing else in the document is affected, and calls are answered as if nothing had been lost.", "all call sequences whose values are accepted by the encoder (blobs of one byte excepted), all sizes up to 16383 bytes, all prefixes, both build modes, every placement of the buffer, every stable or unstable sort", "tests write a few values; that no value disturbs another holds for all sequences", ["src/encoder/mod.rs: Encoder::write_value, Encoder::end_array, Encoder::end_dict", "src/encoder/encodable.rs: SizedValue::write_fleece_to, i64::to_sized_value, u64::write_fleece_to"])
p("C75", "A document below 128 KiB is either intact or refused", "When a sequence of encoder calls succeeds and asks for less than 128 KiB, the finished bytes either read back as the document that was built, or are refused by the checked reader; the checked reader never accepts such a document with something missing or changed.", "all call sequences with values the encoder stores whole and texts and keys of at least two bytes, all prefixes, all shapes of collections, both build modes, every placement of the buffer, every sort", "whether a pointer still fits its slot depends on the sizes of everything written before; tests sample a few sizes", ["src/encoder/mod.rs: Encoder::end_array, Encoder::end_dict, Encoder::_array_should_be_wide, Encoder::_dict_should_be_wide", "src/value/mod.rs: Value::_validate", "src/value/pointer.rs: Pointer::deref_checked"])
p("C76", "Numeric accessors convert numbers as casts do", "to_int, to_unsigned_int, to_short, to_unsigned_short, to_float, to_double and to_bool of a stored number give that number converted to the type asked for: the fraction of a float is cut off, a float out of range gives the nearest bound and NaN gives 0; integers keep their low bits; conversion to a float gives the nearest one, the even one of two, and does not change a number the type can hold.", "every stored float, integer and boolean, all bit patterns, NaN and infinities included", "2^64 bit patterns per accessor; rounding and range edges are where conversions go wrong", ["src/value/mod.rs: to_int, to_unsigned_int, to_short, to_unsigned_short, to_float, to_double, to_bool"])
p("C77", "Typed constructors, indexing and yes/no questions agree with reading", "Array::from_bytes and Dict::from_bytes (and clone_from_bytes) succeed exactly if Value::from_bytes does and the root is an array or a dict, with the same value, and otherwise give its error or IsNotArray / IsNotDict. contains_key is true exactly if get finds a value; indexing gives the value that get gives and panics if there is none; is_empty is true exactly if there are no elements or entries.", "every byte string, every value, key and index", "all documents, hostile ones included", ["src/value/array.rs: from_bytes, clone_from_bytes, index, is_empty", "src/value/dict.rs: from_bytes, clone_from_bytes, contains_key, contains_key_with_shared_keys, index, is_empty"])
p("C78", "Whatever a debug build returns, a release build returns", "A call that returns in a debug build (overflow checks and debug assertions on) returns the same in a release build: opening documents, every accessor, iteration and lookup, whole documents read, every sequence of encoder calls with its bytes, the fleece! macro, mutable collections and copies, serializing and deserializing, saving and restoring key tables. The converse does not hold: where a debug build panics a release build may go on with a wrapped number.", "all bytes at all addresses, all values, all sequences of calls, all types", "tests run in one of the two build modes", ["Cargo.toml", "src/value/mod.rs", "src/value/array.rs", "src/value/dict.rs", "src/encoder/mod.rs", "src/encoder/encodable.rs", "src/value/varint.rs"])
p("C79", "Every key that iteration shows is found by get", "For every dict of a document that from_bytes accepted, whoever wrote it: get (and get_with_shared_keys) answers for every key, with the value that iteration shows for this key, and with nothing exactly for the keys that iteration does not show.", "all accepted byte strings, all dicts in them, all keys, with and without a key table", "the documents of the tests are written by the crate's own encoder, and the search takes different branches for every number of entries", ["src/value/dict.rs: get, get_with_shared_keys, _get, encode_key, uses_shared_keys, Iter", "src/value/mod.rs: dict_key_cmp", "src/shared_keys.rs: encode, decode"])
p("C80","Bytes around a document make no difference","An accepted document is accepted, with the same root, when an even number of other bytes lies in front of it, at any address; and every call that returns something on a value of the document (accessors, indexing, iteration, lookup, deserializing, copying, restoring a key table) returns the same when the document is part of a larger buffer, whatever the bytes before and after it are.","every accepted document, every value, every bytes before and after, every address, every reading call","unbounded inputs; a test sees one neighbourhood, while an out-of-bounds read or a wrong base only shows with particular neighbours",["src/value/mod.rs from_bytes","src/value/pointer.rs deref_checked deref_unchecked","src/value/array.rs get iter validate","src/value/dict.rs get","src/de.rs from_bytes","src/encoder/mod.rs new_to_vec write_fleece"])
p("C81","Copying is determined by content and settles","What write_fleece writes depends only on what the source value reads as, not on the layout, address or build it is read from; the copy of a document whose dicts are in key order reads as exactly that document and, copied again, gives the same bytes; any other document settles after the second copy. A document without shared or repeated keys reads back as the one tree that has every dict in key order.","every readable source value, every encoder state, every layout and address, every sequence of calls","unbounded documents and layouts; a test compares a few copies",["src/encoder/mod.rs write_fleece write_value end_dict finish","src/value/mod.rs from_bytes","src/encoder/encodable.rs to_sized_value"])
p("C82","Documents take predictable space","The length of the output after any calls, and of the finished document, is what plain arithmetic on the calls predicts. A document without shared keys takes two bytes per slot (an element, a key or a value), a header per collection, the padded bytes of the values and keys that do not fit a slot, and a two-byte root, as long as it is small; in general between that and the same with four-byte slots and a six-byte root. The order of dict entries makes no difference.","every sequence of calls, every prefix, documents of any size","unbounded sequences and contents; a waste of space or a byte too few is invisible to a test that only reads back",["src/encoder/mod.rs write_key write_value end_array end_dict finish","src/encoder/encodable.rs fleece_size"])
p("C83","Debug output shows the contents","Formatting a value with {:?} hands the formatter exactly what reading the value returns: every number, text and byte string, every element and every entry with its key, in order, at every depth; and it does so exactly for the values that can be read. So two values that look alike have the same contents, wherever they are stored and however wide their slots are, and a document that reads back as written is shown as written.","every buffer, every value in it, every nesting depth","unbounded nesting and contents; the formatter goes through its own chain of conversions, separate from the reading functions the tests compare",["src/value/mod.rs impl Debug for Value","src/value/array.rs impl Debug for Array","src/value/dict.rs impl Debug for Dict"])
p("C84","Reading gives what the format says the bytes mean","Whatever is read from any value of an accepted document (numbers, texts, binary data, elements and entries with their keys, at every depth) is what the Fleece format says the bytes there mean: two's complement integers, little-endian payloads, length prefixes, inline or pointed-to slots, numbered keys looked up in the table of shared keys. The same bytes never mean two things.","every byte string that from_bytes accepts, every value reached in it, every table of shared keys, every nesting depth","unbounded contents and nesting; reading back what the library wrote cannot show a mistake that the writing and the reading code share, and documents of other implementations use encodings this one never writes",["src/value/mod.rs Value::to_int","src/value/mod.rs Value::to_double","src/value/mod.rs Value::to_str","src/value/mod.rs Value::_get_data","src/value/array.rs Iter","src/value/dict.rs Iter","src/value/pointer.rs"])
p("C85","What is written means, by the format, what was put in","The bytes that finish returns are a document as the Fleece format defines it, and what the format says they mean is the tree that the calls described, so that a reader of the format by someone else gets it too.","every sequence of calls that all succeed, every value, every prefix already in the output, every table of shared keys, every nesting depth","unbounded call sequences; a test that writes and reads back with the same library cannot see a mistake that both sides share",["src/encoder/mod.rs Encoder::finish","src/encoder/mod.rs Encoder::write_value","src/encoder/encodable.rs Encodable::write_fleece_to","src/encoder/value_stack.rs"])
p("C86","Comparing scopes","Two scopes are equal if and only if they hold the same data at the same place in memory, whatever was created, removed or dropped before; the comparison is an equivalence; the scope found for an address within the data of a scope is equal to that scope; a scope with memory of its own is equal to no other.","every history of creating, removing and dropping scopes, every placement by the allocator including reuse of memory and sharing of one Arc","unbounded histories; whether addresses are compared that were reused depends on the allocator",["src/scope.rs Scope::eq","src/scope.rs ScopeEntry::eq","src/scope.rs Scope::containing"])
p("C87","Iterating over shared keys lists every key once, with its number","Iterating over a table of shared keys yields exactly the pairs of a key and its number that encode and decode agree on, each key once and as many as len says; a pair once listed stays listed whatever is inserted later; inserting the listed keys into a new table gives a table with the same keys, numbered in the order of the list.","every history of insertions, every order in which the underlying map iterates","unbounded histories; the order of the map's iteration is not the library's to choose",["src/shared_keys.rs SharedKeys::iter", "src/shared_keys.rs SharedKeys::into_iter", "src/shared_keys.rs Iter::next", "src/shared_keys.rs SharedKeys::default"])
p("C88","Dict lookup looks at logarithmically many entries","Looking a key up in a dict of n entries looks at no more than log2(n) + 1 of them, none twice and none outside the dict, whether or not the key is there and whether or not the dict is sorted; the search always ends.","every buffer, every dict in it, every key, with and without shared keys, both build profiles","dicts of any size; a search that degenerates to a linear or endless one gives the same answers on small dicts",["src/value/dict.rs Dict::_get", "src/value/dict.rs Dict::get", "src/value/dict.rs Dict::get_with_shared_keys"])
p("C89","No reference or pointer outside the buffer is ever made","While bytes are checked, and while an accepted document is read by index below the length, by iteration, by either form of dict lookup or by the first entry of a dict, no reference to memory outside the buffer is made and no pointer outside it is computed - not merely no byte outside it read.","every buffer at every address, every value reachable in an accepted document, every index and key, both build profiles","making a stray reference is undefined behaviour even if it is never read; it leaves no trace in a test",["src/value/mod.rs Value::_from_raw", "src/value/mod.rs Value::_from_raw_unchecked", "src/value/mod.rs Value::_offset_unchecked", "src/value/pointer.rs Pointer::deref_checked", "src/value/pointer.rs Pointer::deref_unchecked", "src/value/array.rs Array::validate"])
p("C90","Documents sharing a growing key table stay readable, also after a restart","When documents are written one after the other, each encoder being given the key table the previous one left, every one of them can be read with the table as it is at the end, and with the table restored from its saved state: every path of indices and keys leads to what was written there, keys that were not written are not found, and iteration yields the entries. Writing can go on with the restored table.","every series of documents of any length, every point at which the table is saved and restored, both build profiles, every address","the property is about histories: a later document may change the table under an earlier one",["src/encoder/mod.rs Encoder::set_shared_keys", "src/encoder/mod.rs Encoder::finish_scoped", "src/shared_keys.rs SharedKeys::encode_and_insert", "src/shared_keys.rs SharedKeys::get_state_bytes", "src/shared_keys.rs SharedKeys::from_state_bytes", "src/value/dict.rs Dict::encode_key"])
p("C91","A value is determined by the bytes it occupies, and its sizes agree","A value that is neither a collection nor a pointer is determined by the bytes it occupies: wherever the same bytes are found, in either build and whatever surrounds them, every accessor answers and answers the same. The size reported when reading is the number of these bytes, lies within the document, and is the size that was announced before writing and the number of bytes written.","every buffer and every position in it, every pair of places with the same bytes, every value reached in an accepted document, every value written","a test reads a value in one or two surroundings; the property is about all the bytes that must not matter",["src/value/mod.rs Value::required_size", "src/value/mod.rs Value::_get_data", "src/value/mod.rs Value::to_int", "src/value/mod.rs Value::to_double", "src/value/mod.rs Value::to_str", "src/encoder/encodable.rs Encodable::fleece_size", "src/encoder/encodable.rs Encodable::write_fleece_to"])
p("C92","The order in which dict entries are written makes no difference","Two programs that write the same content but write the entries of their dicts in a different order, on any level, produce documents that read as exactly the same content: iterated in the same order, with the same value for every key. The configuration of the encoders, what they were given to append to, and where and in which build the documents are read make no difference either.","every pair of series of encoder calls that describe the same content up to the order of entries, all encoder configurations, prefixes, addresses and builds","a dict of n entries can be written in n! orders, on every level, and a test tries a few of them",["src/encoder/mod.rs Encoder::write_key", "src/encoder/mod.rs Encoder::end_dict", "src/encoder/mod.rs Encoder::dict_key_cmp", "src/value/dict.rs DictIterator", "src/value/dict.rs Dict::get"])
p("C93","A document can be read, changed and written again","A document that is copied into a mutable array or dict, changed by any series of calls, and written with an encoder, element by element and entry by entry, is the old document with exactly those changes made to it: every call succeeds, and the new bytes read as the changed content. It makes no difference whether the old document was read with shared keys or the new one is written with them, and everything the changes do not touch is as it was. The same holds for collections that start out empty.","all source documents, all programs of mutable calls at any depth, all encoder configurations, all shared key tables, all addresses and builds","the behaviour of the whole depends on every combination of content, changes and layout, across four parts of the library",["src/mutable.rs ValueSlot::new_from_fleece", "src/mutable/array.rs MutableArray::iter", "src/mutable/dict.rs MutableDict::iter", "src/encoder/mod.rs Encoder::write_fleece", "src/encoder/mod.rs Encoder::finish"])
p("C94","Deserializing depends only on the content of a document","Two documents that read as the same content deserialize to the same result, be it a value or the same error, however they are laid out: with narrow or wide collections, values in line or behind pointers, keys as texts or as shared numbers, numbers and floats in any of their encodings, at other addresses and in other builds.","all pairs of accepted documents with the same content, whoever wrote them, all shared key tables, all addresses and builds, all types, all nesting bounds","it relates every two layouts of the same content, and content and types are nested to any depth",["src/de.rs from_bytes", "src/de.rs Deserializer", "src/de.rs ArrayAccess", "src/de.rs DictAccess"])
p("C95","A struct is read by the names of its fields","What a dict deserializes to as a struct depends only on the entries named after the fields: their order, any other entries beside them, and whether an optional field is null or left out make no difference.","all pairs of accepted documents with the same entries for the fields, whoever wrote them and however laid out, all struct types, all other entries of any content and nesting","the entries that are passed over can be any values at all, in any number, order and depth of nesting",["src/de.rs from_bytes", "src/de.rs Deserializer::deserialize_struct", "src/de.rs Deserializer::deserialize_ignored_any", "src/de.rs DictAccess", "src/de.rs EnumAccess struct_variant"])
p("C96","What a document deserializes to is what it says","A value obtained by deserializing a document is the content of the document taken as a value of the type asked for: integers are unchanged and in range or refused, floats are the nearest, texts and bytes are the same, elements and entries come in their order, and each field gets the entry of its name, or None if it is optional and there is none.","all accepted documents, whoever wrote them and however laid out, all types, all nesting","it is about every content and every type, nested to any depth, including numbers converted between all kinds and widths",["src/de.rs from_bytes", "src/de.rs Deserializer::deserialize_any", "src/de.rs Deserializer::deserialize_option", "src/de.rs ArrayAccess", "src/de.rs DictAccess"])
p("C97","Content that fits a type deserializes into it","A document whose content is a value of the type asked for is deserialized, not refused and without a panic. With C96: a document deserializes exactly when its content fits the type.","all accepted documents, whoever wrote them and however laid out, all types, all nesting","tests show that some contents are accepted; this says that no content that fits is refused, whatever its layout, order of entries, additional entries and left out optional fields",["src/de.rs from_bytes", "src/de.rs Deserializer::deserialize_any", "src/de.rs Deserializer::deserialize_option", "src/de.rs ArrayAccess", "src/de.rs DictAccess"])
import os
out=os.path.join(os.path.dirname(os.path.abspath(__file__)),"..","properties.jsonl")
with open(out,"w") as f:
    for x in P: f.write(json.dumps(x)+"\n")
print(len(P))
