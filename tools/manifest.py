#!/usr/bin/env python3
"""Writes MANIFEST.json.  One line per property: (id, status, theorems, note)."""
import json, os
C = []
def c(pid, status, theorems, note=""):
    C.append({"property": pid, "status": status, "theorems": theorems.split(), "note": note})

c("C01", "proved", "C01_varint_round_trip")
c("C07", "partial", "C07_flat_partial C07_round_trip_partial C07_round_trip_any_size_partial C07_refuted_short_string C07_refuted_short_key C07_refuted_i64",
  "False of the code in general (refutations). Proved for documents of any size up to the pointer limit whose layout, computed from the calls alone (LayoutSpec), works out: no two-byte slot has to hold a 0/1-byte text or key or a pointer over 16383. Documents of at most 16383 bytes without such texts always qualify.")
c("C08", "partial", "C08_output_valid_partial C08_refuted_array C08_refuted_dict",
  "False of the code: width selection can truncate pointers. Proved for documents of any size whose layout works out (see C07).")
c("C12", "partial", "C12_protocol_partial C12_accepted_only_if_allowed C12_allowed_is_accepted C12_answers_partial C12_refuted_begin_dict C12_refuted_end_array",
  "Proved for all values and sizes except the two irregular calls, which are refuted.")
c("C13", "partial", "C13_refused_call_harmless_partial C13_refuted_end_array C13_refuted_late_key",
  "False for end_array on a dict and write_key after the root; proved otherwise for documents whose layout works out with and without the call (see C07).")
c("C14", "partial", "C14_finish_is_end_calls C14_finish_closes_partial C14_refuted",
  "finish = end calls is proved for every state; the decoded document within the conditions of C07.")
c("C15", "proved", "C15_even_output", "For an encoder starting from an even-length buffer; an odd prefix is C16.")
c("C16", "partial", "C16_append_partial C16_prefix_kept C16_refuted_odd", "False for odd-length prefixes. Proved for even-length ones, within the conditions of C07.")
c("C10", "partial", "C10_lookup_sound_partial C10_refuted_long_key", "False with shared keys for keys over 15 bytes; proved for all others.")
c("C17", "partial", "C17_panics_exactly C17_otherwise_returns C17_no_panic_partial C17_refuted_external C17_refuted_string C17_refuted_overflow",
  "False of the code. Proved exactly which inputs make it panic, for all inputs in debug builds and those without huge length prefixes in release builds: a place that validation comes to holds an external pointer, a text longer than its bytes or (debug) an overflowing count.")
c("C18", "partial", "C18_in_bounds_partial C18_in_bounds_debug C18_refuted_release",
  "Proved for every input in builds with overflow checks (buffers above the first 2 GiB of addresses); false in release builds because a huge count wraps. The partial theorem covers release builds without such counts.")
c("C19", "partial", "C19_terminates_partial C19_terminates_debug C19_refuted_release", "As C18.")
c("C20", "proved", "C20_navigation_in_bounds C20_whole_document", "Both builds, all accepted inputs.")
c("C21", "partial", "C21_no_panic_partial C21_refuted", "Numeric accessors panic on a float behind a pointer to a pointer; everything else is proved.")
c("C22", "partial", "C22_get_partial C22_refuted_at_len C22_refuted_out_of_bounds", "False at index = len.")
c("C23", "proved", "C23_iteration")
c("C24", "proved", "C24_checked_unchecked")
c("C25", "partial", "C25_bad_size C25_not_pointer C25_bad_pointer_partial C25_refuted_external", "A pointer with the external flag that leads before the start panics.")
c("C50", "proved", "C50_reachable_inside C50_elements_before_slot C50_finite_tree")
c("C09", "partial", "C09_lookup_partial C09_lookup_any_size_partial C09_refuted_short_key",
  "False for keys of 0 or 1 byte in narrow dicts. Proved for documents without shared keys: every key written is found, nothing else is.")
c("C11", "partial", "C11_sorted_partial C34_shared_keys_partial C11_refuted", "Within the layout condition of C07.")
c("C34", "partial", "C34_shared_keys_partial C34_table_grows C34_refuted_full C34_refuted_16_bytes C34_refuted_long_key",
  "False when the table is full and for keys of 16 bytes or more that collide with a table entry; proved for well-formed tables that are not full.")
c("C02", "partial", "C02_u32 C02_u64_partial C02_odd C02_what_is_read C02_refuted C02_refuted_panic",
  "u32: all. u64/usize: false for numbers whose trailing zero bits make the byte count too small; proved for the others, and exactly what is read for every number. Arrays of scalars within the size condition [writable].")
c("C03", "partial", "C03_partial C03_what_is_read C03_refuted_truncated C03_refuted_hangs C03_refuted_hangs_any_depth",
  "False outside -2048..2047: truncated to 16 bits, or the call never returns. Both described exactly.")
c("C04", "partial", "C04_i8_u8 C04_always_writable C04_refuted_u16 C04_refuted_i16", "i8/u8: all. u16 above 2047 panics, i16 outside -2048..2047 never returns.")
c("C05", "partial", "C05_f64 C05_f32 C05_quiet32 C05_always_writable C05_refuted", "All bit patterns, in arrays of scalars of any size that avoids the width-selection defect (C08); nested documents are C07. Refuted in an array with a blob of 16368 bytes, whose width is chosen wrongly.")
c("C06", "partial", "C06_str_partial C06_data_partial C06_any_size C06_refuted_short_str C06_refuted_short_data C06_refuted_16379",
  "False for texts of 0 or 1 byte in narrow collections and for sizes that straddle the narrow limit.")
c("C26", "partial", "C26_short_partial C26_refuted", "to_unsigned_short gives n mod 4096 instead of n mod 65536.")
c("C27", "partial", "C27_int_partial C27_refuted", "False for negative numbers in fewer than 8 bytes.")
c("C28", "partial", "C28_to_bool_partial C28_defaults C28_refuted", "False for UnsignedInt zero.")
c("C47", "partial", "C47_reported_partial C47_only_if_too_large C47_refuted_panic C47_refuted_wrong_pointer", "Reported when a value is written beyond the limit, and only if the calls ask for more than the limit. False when closing a collection and beyond 4 GiB.")
c("C48", "proved", "C48_pointer_round_trip C48_beyond_limit")
c("C49", "partial", "C49_empty_array_partial C49_empty_dict C49_constants C49_refuted", "False for Array::empty().get(0), which reads past the static.")
c("C29", "partial", "C29_copy_partial C29_copy_document_partial C29_is_calls C29_refuted_int C29_refuted_short",
  "False for values the encoder mishandles (C03, C06). Proved for programs mixing ordinary calls and copies whose layout works out (see C07).")
c("C30", "partial", "C30_encode C30_decode_partial C30_refuted",
  "encode stays stable for every key and history. decode gives the key back except for keys of 16 bytes, which are cut to 15 (C30_refuted describes exactly what comes back).")
c("C31", "partial", "C31_dense C31_step C31_refused C31_bounded C31_again_partial C31_refuted_full",
  "Numbers are dense, bounded and stable for every history. Re-inserting an existing key is refused once the table has 2048 keys.")
c("C32", "partial", "C32_distinct_partial C32_unknown_partial C32_refuted_16 C32_refuted_long",
  "Holds for keys of at most 15 bytes; keys of 16 bytes collide and longer keys are taken for a 15-byte key they start with.")
c("C33", "partial", "C33_partial C33_reads C33_refuted_short C33_refuted_size",
  "Holds for every history of keys of 2 or more bytes, none of 16, except two exact total sizes; false for keys of 0 or 1 byte and for those sizes.")
c("C35", "proved", "C35_programs C35_set C35_set_beyond C35_remove C35_remove_beyond C35_push C35_iteration",
  "Every program of calls on an array and the collections inside it; which values are kept is C37, which keys C36.")
c("C36", "partial", "C36_programs_partial C36_programs_plain C36_any_key_plain C36_insert_partial C36_remove_partial C36_refuted",
  "Full without shared keys. With shared keys false for keys of 16 bytes or more beginning with a 15-byte key of the table; proved for all others.")
c("C37", "partial", "C37_partial C37_refuted_exactly C37_refuted",
  "Proved exactly for the values that satisfy keeps; every other value is proved not to read back.")
c("C38", "partial", "C38_partial C38_refuted_hangs C38_refuted_lost",
  "False for integers C37 loses; proved for readable data whose scalars are kept, without repeated keys and without keys that collide with the table.")
c("C39", "partial", "C39_dict C39_array C39_refuted",
  "True for dicts in every state; false for arrays after the first next.")
c("C51", "proved", "C51_clone C51_clone_programs")
c("C40", "proved", "C40_containing_sound C40_shared_keys_sound C40_new_scope_holds",
  "Operations are atomic (one lock); the allocator is arbitrary except that it does not hand out memory in use.")
c("C41", "partial", "C41_containing_complete_partial C41_refuted",
  "Proved when each scope has memory of its own; false for two scopes made from one Arc.")
c("C42", "partial", "C42_never_poisoned_partial C42_refuted_empty C42_refuted_finish_scoped C42_refuted_data C42_poisoned_for_ever",
  "Proved for non-empty data on which validation does not panic; false otherwise.")
c("C52", "partial", "C52_finish_scoped_partial C52_scope_reads C52_refuted",
  "For the documents covered by C07.")
c("C43", "partial", "C43_answer C43_scalar_refused C43_serialize_partial C43_refuted",
  "Every answer is right (unconditional); that there is an answer is proved for documents whose layout works out (see C07), without the integers the encoder gets wrong. Refuted for u16 above 2047 (panic) and large i64 (no end).")
c("C44", "partial", "C44_round_trip_partial C44_shared_keys_partial C44_refuted",
  "All types and values, plain and with shared keys, for documents as in C43; refuted for one-letter names and texts, Some(None), signalling NaN.")
c("C45", "partial", "C45_variants_partial C45_refuted_name C45_refuted_content C45_refuted_endless",
  "All four shapes for documents as in C43; refuted for one-letter variant names and for variants without content.")
c("C46", "partial", "C46_newtype_refuted C46_unit_struct_refuted C46_refuted_misread",
  "False: proved that newtype structs of anything not stored as an array, and unit structs, never come back; one stored as an array can come back as another value.")
c("C53", "partial", "C53_reads_alike C53_copy_accepted C53_same_verdict_partial C53_conversions C53_serde C53_copied_on C53_refuted_address C53_refuted_shared_keys",
  "All reading calls agree and accepted data stays accepted (unconditional); rejection agrees for input without huge length prefixes. Refuted: with such prefixes the address decides between an error and a panic; the copy of a document with shared keys lies outside its scope and loses its keys.")
c("C54", "partial", "C54_counted C54_encoded_partial C54_values_from_calls C54_encoded_any_size_partial C54_refuted",
  "Proved for documents the encoder writes undamaged, as in C07, of any size. Refuted for other data: shared pointer targets are checked once per path, 6k+8 bytes take more than 2^k calls.")
c("C55", "partial", "C55_depth_linear C55_refuted C55_encoded_partial",
  "The depth is at most linear in the length of the data (unconditional) and follows the nesting of encoded documents; refuted as a fixed bound: every depth is reached, with six bytes a level.")
c("C56", "partial", "C56_determined_partial C56_refuted_duplicate_keys",
  "Proved for calls that write no key twice into a dict, within the pointer range and the call protocol of C12. Refuted for repeated keys, which the encoder accepts: the value found depends on the sorting routine.")
c("C57", "partial", "C57_dict_views C57_refuted_hint C57_refuted_after_none",
  "Proved for every accepted document, up to the first key that has no text. Refuted from there: with a key that is a small integer and no shared keys the iterator announces entries, yields none, and asked again takes a value for a key.")
c("C58", "partial", "C58_finish_value_partial C58_refuted_shared_keys C58_refuted_nothing",
  "Proved for documents without shared keys, under the conditions of C07. Refuted: with shared keys the value has lost all shared-key entries (it is in no scope), and an encoder nothing was written to panics.")
c("C59", "partial", "C59_from_scope_partial C59_no_document C59_refuted_removed",
  "Proved for scopes found from their root's address (C41) and documents mutable collections can hold (C38). Refuted for a scope removed from the map: its shared-key entries are missing from the copy although the scope still has its keys.")
c("C60", "partial", "C60_root_outlives_scope_partial C60_dropped C60_removed C60_refuted",
  "Proved for documents written without shared keys. Refuted with shared keys: once the scope is dropped or removed, lookups in the still living root find nothing.")
c("C61", "partial", "C61_in_bounds_partial C61_in_bounds_enums_partial C61_refuted C61_refuted_one_element",
  "Proved for all bytes (with the condition of C18 on huge counts) and all types without enums, and for enums when the document's arrays are long enough. Refuted for enums: the document [] deserialized as an enum is read past its end, since Array::get accepts index == len.")
c("C62", "partial", "C62_no_panic_partial C62_refuted_float C62_refuted_key",
  "Proved when no float of the document sits behind two pointers and the type has no enum variants with named fields. Refuted in these cases.")
c("C63", "partial", "C63_debug_partial C63_refuted",
  "In bounds and terminating for all accepted data; no panic when no float sits behind two pointers. Refuted for such a float.")
c("C64", "partial", "C64_restore_in_bounds C64_restore_partial C64_refuted",
  "In bounds, terminating, and every table returned is one that insertions make (under the condition of C18 on huge counts). Refuted for elements that are not strings: a panic in debug builds, in release builds they become the empty key.")
c("C65", "proved", "C65_linearizable C65_histories C65_no_deadlock C65_lock_bounded",
  "Small-step model of the calls with the reader-writer lock, its poison flag and the Arc counters: every trace of calls and answers is one of the machine with atomic calls (forward simulation), whose memories are those C40-C43 speak of; deadlock freedom under the allocator's and Rust's ownership guarantees; bounded lock holding. The lock and Arc/Weak are taken to be as documented (sequentially consistent steps); fairness of the lock is not modelled.")
c("C66", "partial", "C66_to_str C66_to_str_exact C66_dict_keys C66_table_partial C66_refuted_16 C66_utf8",
  "Proved for values and dict keys of every byte string, and for tables without 16-byte keys. Refuted for a 16-byte key with a multi-byte character at its end: 15 bytes of it are kept (by the documented capacity of zstr<16>).")
c("C67", "proved", "C67_which_keys C67_encoder_shares C67_encoder_does_not_share",
  "char::is_alphanumeric is a parameter beyond ASCII.")
c("C68", "partial", "C68_dict_partial C68_array_partial C68_no_undefined_behaviour_partial C68_no_undefined_behaviour_array_partial C68_refuted_too_large",
  "The returned value reads as the literal under the conditions of C07; no undefined behaviour for any literal below the size limit. Refuted above it: the encoder's PointerTooLarge is declared unreachable (unwrap_unchecked).")
c("C69", "partial", "C69_always_answers_partial C69_not_writable C69_refuted",
  "Proved for all sequences of calls below the size limit whose values are can_write; C69_not_writable shows that the condition is exact. Refuted for the other values (i32 2048 never returns, u16 2048 panics).")
c("C70", "partial", "C70_no_memory_error_partial C70_dangles_exactly C70_mutable C70_freed_exactly C70_refuted",
  "Proved for everything but one case: the text of a shared key from iterating a document. It can be read while somebody has the keys (C70_no_memory_error_partial) and is freed memory otherwise (C70_dangles_exactly, C70_refuted: scope dropped, root kept). Mutable dicts are proved entirely.")
c("C71", "partial", "C71_accepted_exactly C71_refused_exactly C71_same_everywhere C71_refuted_overlong",
  "Both directions, against a grammar in plain arithmetic on bytes (GrammarSpec.v): debug builds on every input, release builds on inputs without huge or overlong length prefixes. With an overlong one the release build accepts what is not a document and what the debug build panics on (C71_refuted_overlong).")
c("C72", "partial", "C72_not_mutable C72_same_for_all C72_refuted_odd_address",
  "Holds for documents at even addresses, whatever they contain; in a slice at an odd address every value says that it is mutable (C72_refuted_odd_address).")
c("C73", "proved", "C73_order C73_copies_differ C73_equal_alike C73_not_by_content",
  "C73_not_by_content records that equality is not equality of content.")
c("C74", "proved", "C74_small_documents C74_unchanged",
  "Complements C07: the condition that every value be stored whole is dropped, and the values for which it fails are shown to be exactly those that change.")
c("C75", "partial", "C75_intact_or_refused_partial C75_accepted_is_intact_partial C75_refuted",
  "Proved for documents below 128 KiB without texts, keys and blobs of less than two bytes. C75_refuted: from 128 KiB on a dict entry can be lost although every call succeeds and from_bytes accepts the bytes.")
c("C76", "partial", "C76_truncate C76_of_int C76_exact_int C76_narrow C76_widen C76_float32 C76_float64 C76_int_partial C76_unsigned C76_true C76_refuted_to_double C76_refuted_to_float",
  "Floats and booleans: all accessors. Integers: all but to_float, which rounds twice (C76_refuted_to_float), and to_double of unsigned integers from 2^63 on, which is negative (C76_refuted_to_double). What to_int gives for signed integers is C26 and C27, to_bool of integers C28.")
c("C77", "proved", "C77_array_from_bytes C77_dict_from_bytes C77_array_clone C77_dict_clone C77_contains C77_contains_shared C77_index C77_array_is_empty C77_dict_is_empty", "")
c("C78", "proved", "C78_open C78_scalars C78_collections C78_encode C78_macro C78_mutable C78_copy C78_serde C78_key_table C78_release_goes_on", "C78_release_goes_on shows that the converse is false")
c("C79", "partial", "C79_texts_partial C79_table_partial C79_stored C79_refuted_order C79_refuted_number C79_refuted_both", "proved for dicts with ascending keys that are texts or numbers of the table; false for others: from_bytes checks neither the order nor the kind of keys")
c("C80", "partial", "C80_open_partial C80_append_partial C80_scalars C80_collections C80_uses C80_odd C80_refuted_two_bytes", "every reading call: proved for any neighbours and any value; opening: proved for documents of more than two bytes. A document of two bytes (an inline value alone) is refused when anything lies in front of it")
c("C81", "partial", "C81_by_reading_partial C81_by_hand_partial C81_reads_in_order_partial C81_one_order C81_stable_partial C81_second_copy_partial C81_stable_any_partial C81_second_copy_any_partial C81_refuted_int C81_refuted_first_copy", "proved for trees whose integers are between -2048 and 2047 (by_reading, by_hand), and for copies whose layout works out (as C07), of any size, without repeated keys (stable_any, second_copy_any); below the narrow pointer range with texts of at least two bytes it always does (stable, second_copy). Refuted: two documents that both read [70000], one of which can be copied and one not; a dict with numbered keys is copied in number order, so its first copy is not yet stable")
c("C82", "partial", "C82_predicted_partial C82_space_partial C82_order C82_refuted_dropped_key C82_refuted_refused_key", "proved for good arguments (not the integers the encoder damages) and documents whose layout works out; the closed form without shared keys and with every call accepted. Refuted: a key dropped by finish, or refused because another one waits, leaves its text in the document")
c("C83", "proved", "C83_shows_contents C83_names_type C83_accepted_shown C83_tells_apart C83_written", "the structure handed to the formatter, not the text the standard library makes of it; a float cut short behind two pointers can neither be read nor shown (C63)")
c("C84", "partial", "C84_reads_exactly C84_right_partial C84_document_partial C84_meaningful C84_one_meaning C84_agree C84_refuted C84_refuted_nan", "false: a negative integer of less than eight bytes is read as a positive number and a signalling NaN of four bytes as another NaN; proved: an exact description of what is read, and that it is what the format says wherever neither of these occurs; also outside the format: text that is not UTF-8 is read as empty, a key that is neither text nor number as the empty text, and an unknown key number ends the dict; release builds without huge or overlong length prefixes")
c("C85", "partial", "C85_written_partial C85_refuted", "false where C07 is: of an array with the one text \"a\" the bytes say [353]; proved under the conditions of C07 (values the encoder handles, no text or key of less than two bytes in a narrow collection, no narrow pointer out of reach); a signalling NaN of four bytes is compared as the quiet one, which is what the calls are taken to describe")
c("C86", "proved", "C86_same_data C86_equivalence C86_found C86_own_memory C86_entries", "entries of the global map, which do not keep scopes alive, are equal to nothing once their scope is gone")
c("C87", "proved", "C87_decode C87_encode C87_listed C87_once C87_later C87_rebuilt C87_new", "C87_rebuilt is for histories without keys of 16 bytes, which the table cuts (C30)")
c("C88", "proved", "C88_recorded C88_logarithmic C88_logarithmic_shared C88_ends", "the cost is counted in entries compared; comparing two texts takes time proportional to their length")
c("C89", "partial", "C89_references_partial C89_accepted C89_array C89_dict C89_refuted", "false as it stands: deref_checked computes the target of a pointer before it checks it, so the two bytes 80 02 already make a pointer in front of the buffer (C89_refuted). References are fine for every input (debug build, or no huge count: C89_references_partial), and nothing stray is made with accepted documents. The rule that a pointer made from a slice may only be used within that slice is not modelled")
c("C90", "partial", "C90_partial C90_goes_on C90_refuted", "proved under the conditions of C34 for each document, a table that does not become full and whose saved state has none of the two sizes of C33. Refuted: a key of 17 bytes in an earlier document is no longer found once a later document puts its first 15 bytes into the table")
c("C91", "partial", "C91_partial C91_reported C91_accepted C91_written C91_refuted C91_refuted_announced", "determined by its bytes: proved without restriction. Reported size: proved for length prefixes that are as short as possible; refuted for others, which are accepted. Announced size: proved for all values that are kept outside slots and that the encoder writes correctly; refuted for u16 above 2047, for which two bytes are announced and more are needed")
c("C92", "partial", "C92_partial C92_shared_partial C92_equivalence C92_refuted_shared C92_refuted_repeated", "proved for all documents the encoder writes correctly (C07's conditions) without shared and repeated keys; with them both documents are proved to have the same entries, and both restrictions are necessary: with shared keys the order of iteration is the order in which keys were first written, and of a key written twice either value may be the one that is found, depending on the order")
c("C93", "partial", "C93_edit_partial C93_new_array_partial C93_new_dict_partial C93_any_partial C93_elsewhere C93_refuted", "proved for source documents a mutable collection can hold (C38) and results of up to 16383 bytes with integers from -2048 to 2047 and texts and keys of two bytes or more; for other results given that the resulting encoder calls are ones it handles (C93_any_partial). C93_refuted: a text of one byte that the mutable dict holds correctly is written as a number")
c("C94", "partial", "C94_alike_partial C94_alike_enums_partial C94_refuted_enum C94_refuted_named C94_refuted_keys", "proved for documents whose dict keys are texts or known shared numbers, for types without enums, and with enums where the content names the variant and has its content, and, for variants with named fields, without shared keys. C94_refuted_named: with keys as texts in the wrong order a field is not found, with the same keys as numbers in the right order it is. C94_refuted_enum: the number of a variant is understood only when it is stored as an unsigned integer. C94_refuted_keys: an entry with any other key ends iteration in silence but is an error for a map")
c("C95", "partial", "C95_fields_partial C95_refuted_unknown C95_refuted_absent", "proved for structs whose fields have types without enums, for documents whose dict keys are texts or known shared numbers, each used once. C95_refuted_unknown, C95_refuted_absent: a variant of an enum with named fields refuses a dict with another entry, and one that leaves out an optional field")
c("C96", "partial", "C96_told_partial C96_told_enums_partial C96_integer C96_refuted_keys C96_refuted_beyond", "proved for documents whose dict keys are texts or known shared numbers, for enums when their arrays start with the name of the variant and have its content. C96_refuted_keys: an entry whose key is binary data is shown with an empty key by the iterator and with the bytes as key by the deserializer. C96_refuted_beyond: an array with the name of a variant only deserializes to the variant with what lies behind the array as its content")
c("C97", "partial", "C97_fits_partial C97_exactly_partial C97_exactly_enums_partial C97_fits_named_partial C97_refuted_order C97_refuted_variant C97_refuted_twice", "proved for types whose enums have no variants with named fields, for documents whose dict keys are texts or known shared numbers, none twice in a dict; that nothing else is accepted, for types without enums, and for enums when their arrays start with the name of a variant and have its content. A variant with named fields only as a whole document without shared keys, when the keys of its dict ascend and are exactly the fields. C97_refuted_order: refused if they do not ascend. C97_refuted_variant: a variant with named fields refuses a dict that leaves out an optional field. C97_refuted_twice: an accepted document may have a key twice in a dict, and a struct then refuses it")
C.sort(key=lambda x: x["property"])
open(os.path.join(os.path.dirname(__file__), "..", "MANIFEST.json"), "w").write(
    '{"claims": [\n' + ",\n".join(json.dumps(x) for x in C) + "\n]}\n")
