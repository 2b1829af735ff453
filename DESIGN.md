# fleece-rs in Rocq: design

## Approach

The model is a set of small total Gallina functions over `Z`, `list Z` (bytes),
`option` and records, one per Rust function, each citing its source lines.

* **Outcomes** (`Prelude.v`): `outcome A := Ret a | Panic | UB | Diverge`.
  `Result`/`Option` stay data inside `Ret`. `UB` = a read outside the byte
  buffer. `Diverge` = recursion fuel exhausted (theorems either exclude it or
  prove it for *every* fuel, which is non-termination).
* **Build mode**: a flag `dbg` selects debug (overflow checks, debug_assert) or
  release (wrapping) arithmetic. Theorems quantify over both unless stated.
* **Decoder** (`Decode.v`): a buffer `env = {dbg; base address; bytes; shared keys
  found by Scope}`; a `&Value` is `(position, slice length)`.
* **Encoder** (`Encodable.v`, `Encoder.v`): output bytes, collection stack,
  shared keys, closed flag; each API call is `enc -> outcome (enc * result)`.
* **Shared keys, Scope, Mutable collections, serde** in their own files.
* **Specification** (`Spec.v`): a `tree` of plain values, an abstract
  document-builder for the call protocol, and list/map specs.

Property theorems live in `Properties_*.v` files, closed by `exact lemma`, with
`Print Assumptions` below each. Where the code violates the English property a
theorem `..._refuted` gives the witness and a `..._partial` theorem the
strongest statement proved.

## Plan per property

| id | modelled | how |
|----|----------|-----|
| C01 | varint read/write/size_required | induction on byte count |
| C02-C04 | Encodable ints, to_int | arithmetic; refuted by witness + exact characterisation |
| C05 | float bits, f32<->f64 conversion as integer arithmetic | bit arithmetic |
| C06 | write_fleece_string, SizedValue writer, get_data | case analysis on length class; narrow inline strings refuted |
| C07-C09,C11,C14-C16 | whole encoder + decoder | invariant: every stack entry denotes a tree stored in the output; refinement to the abstract builder; which documents survive is decided by the layout computed from the calls (LayoutSpec.v), related to the encoder state by simulation (EncoderLayout.v) |
| C10 | Dict::get | induction on binary search |
| C12,C13 | encoder step function | case analysis against the abstract builder |
| C17-C21,C24,C25,C50 | from_bytes, validation, navigation | induction on validation; refutations by witness |
| C17 (exact) | the places validation visits, in order, and the three mishaps (PanicSpec.v) | both directions by induction on validation, with positions and ends kept even; a failing slot makes every enclosing place fail for every recursion depth |
| C22,C23 | Array::get, Iter | induction |
| C26-C28 | accessors | arithmetic / finite sweep |
| C29 | write_fleece | induction on tree |
| C30-C34 | SharedKeys | invariant over insert histories |
| C35-C39, C51 | mutable collections | refinement to list / map |
| C40-C42, C52 | Scope map | invariant over histories with an adversarial allocator |
| C43-C46 | serde ser/de | induction on the serde value tree |
| C47,C48 | SizedValue, pointer limits | arithmetic |
| C49 | constants | computation |
| C53 | Alloced, clone_from_bytes | equality of all reading functions under a change of base address |
| C54, C55 | validation with its calls counted | erasure to the plain validation; induction on the layout of encoded documents; a family of inputs for the refutations |
| C56 | encoder with any two sorting routines | ordered permutations without equal keys are unique; simulation of the call sequence with the keys tracked |
| C57 | `Dict` accessors and the iterator over accepted data | the slots of the dict as a list (C20, C23); induction on the number of calls of `next` |
| C58 | `finish_value` | from the round trip of C07, for a document placed anywhere and read with any table |
| C59 | `from_scope` of the mutable collections, as functions of the world of scopes | the root is found in its own scope; then simulation as in C35-C38 |
| C60 | lookup of shared keys by address in later worlds | documents without shared keys read the same with every table; a lookup in a removed or dropped scope finds none |
| C61 | the serde deserializer on arbitrary bytes and types (De.v) | every value the deserializer looks at is a validated slot (induction on the validation measure and on the depth of type names) |
| C62 | the same, without panics | the same induction with a flag for panics; only numeric accessors on cut floats and `contains_key` can panic |
| C63 | `Debug` as the accessor calls it makes (De.debug_fmt) | the same induction over the read of a whole value |
| C64 | `from_state_bytes` on arbitrary bytes (SharedKeysState.v) | induction over the elements, which are validated slots; the table grows by `encode_and_insert` only |
| C65 | the scope calls in small steps with lock, poison flag and `Arc` counters (Threads.v); the machine with atomic calls (ThreadsSpec.v) | forward simulation with the effect of each call at one of its steps; inserting does not depend on the answers of the comparisons because equal entries lie within the new range |
| C66 | to_str, dict iteration, table keys; UTF-8 validation and decoding against the encoding of Unicode scalar values (TextSpec.v) | case analysis on the length classes of UTF-8; a 16-byte key cut inside a character refutes the table part |
| C67 | can_encode, encode_and_insert, write_key | characters of an encoded text are those that were encoded (C66) |
| C68 | the macro as the calls it expands to, an error being undefined behaviour (Macro.v) | the calls of a literal are accepted by the abstract builder (induction on the literal); C07 and C69 for the rest |
| C69 | the whole encoder | invariant on states reached by any calls: everything on the stack refers into the output, the size is bounded by what the calls asked for; case analysis on the integer writers for the exact boundary |
| C70 | owners of bytes and shared keys with the counts of their `Arc`s, iterators, references with the owner they borrow from (Owners.v); the compiler's rules as a predicate (OwnersSpec.v) | invariant: each count is the number of owners; a reference points to what its lender owns |
| C71 | a grammar of documents in plain arithmetic on bytes and positions, without reference to the model (GrammarSpec.v) | each reading function is characterised by its grammar rule; one step of validation is one rule; then induction on the recursion depth (accepted is valid) and on the derivation with the recursion measure of C18 (valid is accepted) |
| C72 | `is_mutable` (IsMutable.v) on values at positions of a buffer at an address | positions of reached values are even: pointers are multiples of two, collections begin their elements at even offsets; induction on the path |
| C73 | `eq`, `cmp`, `clone` of owned values (Alloced.v) | arithmetic on addresses; a root lies inside its buffer (C25) |
| C74 | the whole encoder, all integer types, short texts; what is left of a value is a table (KeptSpec.v) | a second encoder state in which the bit that narrow writing clears is already cleared; both write the same bytes as long as no collection is wide; the refinement of C07 applies to the second |
| C75 | the encoder with collections that do not fit their slots; validation of the result | the value at a position is either whole or certainly refused (an inductive predicate on bytes, Damage.v); a pointer of 16384 to 131071 bytes in a slot of two bytes leaves 80 00 there, which validation refuses; by induction over the calls, damage once done stays below the root |
| C76 | the float conversions on bit patterns (Float.v) against rational numbers: what the bits stand for, the nearest float, the integer without the fraction (NumberSpec.v) | numbers brought to a common scale; rounding to nearest even for any format by comparing integers; the accessors by case analysis on the tag |
| C77 | typed constructors, contains_key, indexing, is_empty | case analysis; is_empty by the counting lemmas of C23 and C57 |
| C78 | every function whose result depends on the build mode, in both modes (BuildSpec.v) | agreement of the checked and the wrapping arithmetic, lifted through every function by induction; finish_value uses C24 |
| C79 | the search of `Dict::get` on any accepted dict; ascending entries as a specification (AscendSpec.v) | invariant of the binary search on strictly ascending keys; entries from slots by C57; numbers and texts of a table are inverse |
| C80 | the whole reading side on a buffer that is part of a larger one (AroundSpec.v) | a simulation of every reading function by positions shifted by the prefix length, with more fuel on the larger side; serde, copies and key tables over an abstract correspondence of basic accessors, which also gives C53 for them |
| C81 | write_fleece against a canonical list of calls for the tree the source reads as; trees with every dict in order (StableSpec.v) | induction on the reading; the stored form of an encoded dict is sorted, hence the tree read is the unique ascending one; the copy of a copy by the first part; documents of any size by the layout condition of C07 (StableAny.v) |
| C82 | the length arithmetic of LayoutSpec.v run over the calls; the space of a tree in closed form (SizeSpec.v) | the layout relation of EncoderLayout.v through runs and finish; small documents always lay out well; a second simulation between the layout and the spec builder |
| C83 | the `Debug` impls of values, arrays and dicts, up to the structure given to `debug_tuple` (Show.v); the contents told by it (ShowSpec.v) | induction on the fuel of reading, both ways; combined with C63 and C07 |
| C84 | the meaning of the bytes as an inductive relation over bytes and positions, in the view of the format, of the library, and where both agree (MeaningSpec.v, on top of GrammarSpec.v); nothing of the model in it | scalars by the kind of their first byte; slots through the pointer grammar of C71; collections by induction on the fuel, both ways; uniqueness and the relation of the views by mutual induction (Meaning.v) |
| C85 | the encoder (as for C07) against MeaningSpec.v and GrammarSpec.v, without the decoder; signalling NaNs made quiet (FaithfulSpec.v) | the layout invariant of C07 (`stored`) implies the meaning: scalars from how their bytes were made, headers, slots and pointers directly, by mutual induction (Faithful.v) |
| C86 | comparison of scopes and of entries of the global map (ScopeEq.v) in the reachable worlds of C40 | invariant: data of scopes that are alive is apart or the same (ScopeEqProofs.v) |
| C87 | the map's entries and their iteration in any order (SharedKeysIter.v) | induction over the table and the history (SharedKeysIterProofs.v) |
| C88 | the search loop with the indices it looks at recorded (LookupCost.v) | the recorded search gives the same outcome; induction over the rounds with log2 of the interval (LookupCostProofs.v) |
| C89 | the checking and reading functions once more, with from_raw_parts and pointer arithmetic outside the buffer counted as undefined (Strict.v) | the strict functions are compared with those of Decode.v by the same inductions as C18 and C19 (StrictProofs.v) |
| C90 | the history as a relation over encoder runs (SeriesSpec.v); encoder, table and reader as before | induction over the series; the table only grows and holds only keys of 2 to 15 bytes that were written (SeriesProofs.v), then C33 and C34 |
| C91 | the bytes a value occupies, in plain arithmetic over GrammarSpec (OccupySpec.v); accessors, required_size, fleece_size and write_fleece_to as before | case analysis over the first byte; prefixes are carried over from place to place by induction over their digits (OccupyProofs.v) |
| C92 | encoder and reader as before; content as the tree the calls describe, equality up to the order of entries (tsim, BuilderSpec.v) | tsim is an equivalence; both documents read as trees in ascending order (C81), and such a tree is unique up to tsim (OrderProofs.v) |
| C93 | mutable collections, write_fleece and the encoder as before; the user's loop that writes a mutable collection is the relation exports (EditSpec.v) | copying and changing simulate operations on trees (C35, C36, C38); by induction on the tree, the calls of the loop describe it up to the order of entries and are in order; the copying round trip (C29) gives the bytes |
| C94 | deserializing (De.v) and reading through the API (Read.v) as before | two values that read as the same tree show a visitor the same events, and their iterators give values that again read alike; simulation of the two runs by induction on the nesting bound |
| C95 | deserializing (De.v) and reading through the API (Read.v) as before | passing over a value that can be read succeeds, by induction on its nesting; the loop over the entries amounts to a choice of the entries named after fields; each field gets the same in both runs, by the simulation of C94 and the permutation |
| C96 | deserializing (De.v) and reading through the API (Read.v) as before; the specification is an inductive relation between content, types and values (ToldSpec.v) | induction on the nesting bound; what a visitor sees of a value is the content read from it (from C94), rounding as in C76, the loop over the entries of a struct as in C95 |
| C97 | deserializing (De.v) and reading through the API (Read.v) as before; the specification is the relation of C96 (ToldSpec.v) | induction on the nesting bound, which is at least the nesting of the content times that of names and options in the type; what comes out is told by C96 |

## Trusted base

* **Coq's kernel** (8.16.1), including the virtual machine used by `vm_compute` in
  examples and refutations. No axiom is declared, no kernel check is switched off.
* **Print Assumptions** stands below every property theorem and answers "Closed under
  the global context" for each of them. `coqchk -o` additionally lists seven constants
  of `Coq.ssr.ssrunder.Under_rel.*`: these belong to the standard library's module
  `ssrunder` (sealed behind a module signature), are loaded with other standard library
  modules and are used by no theorem here.
* **The model itself**: that the Gallina functions do what the Rust functions do. This
  rests on reading; every definition cites its lines. Evidence beside it:
  `Conformance.v` runs the project's own unit tests (and the bytes they contain) on the
  model, and the model was extracted in a scratch directory and run on the project's
  1.2 MB test file `1000people.fleece` (accepted, the decoder tests' checks hold,
  re-encoding its people reads back the same).
* **The specifications** (`Spec.v`, `BuilderSpec.v`, `LayoutSpec.v`, `TotalSpec.v`,
  `PathSpec.v`, `ValueSpec.v`, `CopySpec.v`, `SharedKeysSpec.v`, `ReadSpec.v`,
  `MutableSpec.v`, `ScopeSpec.v`, `SerdeSpec.v`, `CostSpec.v`, `DetSpec.v`,
  `ViewSpec.v`, `UntrustedSpec.v`, `TextSpec.v`, `ThreadsSpec.v`, `MacroSpec.v`,
  `OwnersSpec.v`, `PanicSpec.v`, `GrammarSpec.v`,
  `KeptSpec.v`, `NumberSpec.v`, `BuildSpec.v`,
  `AscendSpec.v`, `AroundSpec.v`, `StableSpec.v`, `SizeSpec.v`, `ShowSpec.v`, `MeaningSpec.v`, `FaithfulSpec.v`, `SeriesSpec.v`, `OccupySpec.v`, `EditSpec.v`, `AlikeSpec.v`, `FieldsSpec.v`, `ToldSpec.v`).

### What is taken to be as documented

| outside code | in the model |
|---|---|
| target | 64-bit, little-endian; `usize` has 64 bits, no allocation exceeds `isize::MAX` |
| `sort_unstable_by` | any function returning an ordered permutation (`sort_ok`) |
| `char::is_alphanumeric` | a parameter `c_ua` beyond ASCII |
| `as`-casts and arithmetic on floats | bit patterns in integer arithmetic (Float.v); a NaN converted between f32 and f64 keeps its payload bits and becomes quiet |
| `fixedstr::zstr<16>` | keeps the first 15 bytes; lookups of texts with NUL bytes are not settled |
| `folklore::HashMap` | a finite map; `get_key(i)` is the i-th key inserted; iteration is in the order of insertion, which only C33 (numbers survive saving and restoring) depends on: C87 holds for any order and shows that a restored table has the same keys, numbered in the order of iteration |
| `BTreeMap`, `Vec` | finite maps and lists |
| `rangemap::RangeMap` | half-open ranges; inserting overwrites and coalesces equal neighbours |
| `RwLock`, `Arc`, `Weak`, `crossbeam` | atomic, sequentially consistent steps (Threads.v); a panic while writing poisons; no fairness |
| the allocator | adversarial: any address not overlapping a live allocation |
| serde's derived code and std visitors | values as a tree (`sval`), visitors as functions of the call they receive (SerdeSpec.v) |
| memory | a read outside the buffer, or of something freed (Owners.v), is `UB`; making a reference or pointer outside the buffer is `UB` only in Strict.v (C89); aliasing rules of references are not modelled |
| the borrow checker | `OwnersSpec.accepted`: a reference is not used after the owner it was borrowed from, an iterator ends before its owner |
| stack and heap | unlimited; C55 bounds the recursion depth instead |

### What is modelled

Every function of `/repo/src` with an effect on results: `alloced.rs`, `encoder/*`,
`lib.rs` (the macro), `mutable.rs`, `mutable/*`, `scope.rs`, `ser.rs`, `de.rs`,
`shared_keys.rs`, `value/*`. Not modelled: the texts made by `Display` and `Debug`
(the structure `Debug` hands to the formatter is, C63 and C83), error payloads and conversions between
error types, comparison operators on mutable dict keys,
`Clone` of `SharedKeys`, `AsRef`/`Borrow`/`Deref` glue,
`is_human_readable`, serde size hints, benches and build scripts.

### Hypotheses that recur in the theorems

| hypothesis | meaning | why |
|---|---|---|
| `sort_ok (c_sort c)` | the sorting routine sorts | documented guarantee |
| `lenZ prefix mod 2 = 0` | `new_to_vec` got an even number of bytes | refuted for odd prefixes (C16) |
| `good_op`, `enc_ok` | integers the encoder writes correctly | refuted for the others (C02–C04, C69) |
| `keys_ok` | `set_shared_keys` at most once, no 16-byte keys after it | refuted (C34, C66) |
| `polite`, `regulars` | the two calls whose refusal is not harmless are not made | refuted (C12, C13) |
| `layout_ok` | narrow collections hold nothing that does not fit in two bytes | refuted (C06, C08) |
| `ops_size … <= MAX_WIDE` | the document stays below 1 GiB | refuted above (C47) |
| `wf_env`, `checked` | bytes are bytes, the buffer is not in the lowest 2 GiB of memory; debug build or counts that do not overflow | refuted otherwise (C18, C19) |
| `addressable` | the buffer fits in the address space | any real buffer |
