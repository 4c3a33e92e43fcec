{"claims": [
{"property": "C01", "status": "proved", "theorems": ["C01_reads", "C01_short_read", "C01_left", "C01_negative_panics"], "note": "the sequence-of-reads statement for non-negative lengths whose end fits an int; a negative length panics"},
{"property": "C02", "status": "proved", "theorems": ["C02_roundtrip", "C02_shape", "C02_injective", "C02_malformed_length", "C02_text_roundtrip"], "note": ""},
{"property": "C03", "status": "partial", "theorems": ["C03_reverse_partial", "C03_odd_length", "C03_wrong_iff", "C03_reverse_refuted"], "note": "full statement is false for odd lengths with a non-zero middle byte; exact characterisation proved"},
{"property": "C04", "status": "proved", "theorems": ["C04_decode", "C04_encode", "C04_roundtrip"], "note": "encode for the Go types each codec accepts"},
{"property": "C05", "status": "partial", "theorems": ["C05_decode_exact", "C05_decode_partial", "C05_i8_always_zero", "C05_decode_refuted"], "note": "exact result proved for every byte string; two's complement fails for i8 and for the minimum of each width"},
{"property": "C06", "status": "partial", "theorems": ["C06_encode_partial", "C06_encode_wide_big_endian", "C06_wide_iff", "C06_encode_refuted"], "note": "little-endian two's complement for i8..i64 in range of the Go type; i128 and i256 are written big-endian"},
{"property": "C07", "status": "proved", "theorems": ["C07_add", "C07_sub", "C07_mul", "C07_ops64", "C07_cmp", "C07_cmp64", "C07_equality", "C07_bitwise", "C07_bitwise64", "C07_shifts"], "note": ""},
{"property": "C08", "status": "proved", "theorems": ["C08_quorem", "C08_quorem64", "C08_div", "C08_div64", "C08_by_zero_panics"], "note": ""},
{"property": "C09", "status": "proved", "theorems": ["C09_string", "C09_string_injective"], "note": ""},
{"property": "C10", "status": "proved", "theorems": ["C10_bytes", "C10_from_bytes", "C10_big", "C10_from_big"], "note": ""},
{"property": "C100", "status": "partial", "theorems": ["C100_text", "C100_back_partial", "C100_back_refuted"], "note": "The bytes can be read back when each is at least 100; refuted in general: 1, 2 and 12 have one text."},
{"property": "C101", "status": "partial", "theorems": ["C101_nil_partial", "C101_sound", "C101_option", "C101_array_refuted"], "note": "Proved for all kinds but arrays, on which it panics, and unsafe pointers, whose nil is not recognised (C101_array_refuted)."},
{"property": "C102", "status": "partial", "theorems": ["C102_zeros_partial", "C102_zeros_refuted"], "note": "Proved for unsigned numbers up to 128 bits, compacts, bool, Balance and Moment, and the structs, tuples, vectors, arrays, sets, boxes, ranges and enums made of them. Refuted for hashes, options, signed numbers, U256 and byte strings, where a missing byte is not a zero."},
{"property": "C11", "status": "partial", "theorems": ["C11_decode", "C11_encode_partial", "C11_encode_large", "C11_encode_refuted"], "note": "decode proved in full; encode proved below 2^30, empty text from 2^30 on"},
{"property": "C12", "status": "partial", "theorems": ["C12_decode_partial", "C12_balance_refuted"], "note": "proved for every u64 and u128 and every Balance but the largest, which decodes to -1"},
{"property": "C13", "status": "partial", "theorems": ["C13_encode_iff", "C13_encode_partial", "C13_encode_refuted"], "note": "exact characterisation of the values encoded canonically; false where the low 64 bits pick the wrong form"},
{"property": "C14", "status": "partial", "theorems": ["C14_narrow_exact", "C14_narrow_partial", "C14_u256_partial", "C14_narrow_refuted"], "note": "exact result for u8 and u16; u256 for the forms the code reads right"},
{"property": "C15", "status": "proved", "theorems": ["C15_decode", "C15_unique_reading"], "note": "for every value of the SCALE relation of SpecScale.v, at any position and before any other bytes"},
{"property": "C16", "status": "proved", "theorems": ["C16_encode"], "note": "for the values SpecScale.v marks strict"},
{"property": "C17", "status": "proved", "theorems": ["C17_roundtrip"], "note": "for the values SpecScale.v marks strict"},
{"property": "C18", "status": "partial", "theorems": ["C18_some_partial", "C18_empty", "C18_some_refuted"], "note": "proved for values that are not empty strings, nil slices or nested nils; those encode as 00"},
{"property": "C19", "status": "partial", "theorems": ["C19_option_bool_partial", "C19_spelling_refuted"], "note": "proved for the inner name spelled bool; Option<Bool> takes two bytes"},
{"property": "C20", "status": "partial", "theorems": ["C20_position_partial", "C20_position_any_registry_partial", "C20_position_refuted"], "note": "false for decoders reading the start of the buffer and for length prefixes near 2^63; everything else proved, never a different value"},
{"property": "C21", "status": "partial", "theorems": ["C21_unread_bytes_partial", "C21_unread_bytes_any_registry_partial", "C21_short_read_refuted", "C21_unread_bytes_refuted"], "note": "false for Float32/Float64/GenericLookupSource, which read the start of the buffer; proved for every other decoder"},
{"property": "C22", "status": "partial", "theorems": ["C22_truncated_partial", "C22_truncated_refuted"], "note": "false: short reads are zero-filled; proved that a truncated decode never stops before the end of its input"},
{"property": "C23", "status": "partial", "theorems": ["C23_returns_partial", "C23_returns_refuted"], "note": "proved for every type whose chains of first components are finite, recursive types included; false for a type that is optional in itself on truncated input"},
{"property": "C24", "status": "partial", "theorems": ["C24_bytes_partial", "C24_bytes_refuted"], "note": "proved unless the bytes print as 0x text or, for String, are not printable ASCII"},
{"property": "C25", "status": "partial", "theorems": ["C25_decode", "C25_encode", "C25_roundtrip_exact", "C25_roundtrip_partial", "C25_roundtrip_refuted"], "note": "exact result for every vector: the first eighth comes back, so one byte round-trips and two do not"},
{"property": "C26", "status": "partial", "theorems": ["C26_flags_partial", "C26_flags_refuted"], "note": "proved for 16, 32 and 64 bits below bit 63; 8-bit sets and bit 63 give the empty set"},
{"property": "C27", "status": "partial", "theorems": ["C27_variant", "C27_value_list", "C27_unknown_panics", "C27_numbered_partial", "C27_unknown_refuted"], "note": "false only for enums with explicit numbers, where an unknown index is the empty name"},
{"property": "C28", "status": "partial", "theorems": ["C28_zero_exact", "C28_zero_partial", "C28_encode", "C28_zero_refuted"], "note": "false whenever a byte is left; exact result proved"},
{"property": "C29", "status": "partial", "theorems": ["C29_fields_partial", "C29_flat", "C29_fields_refuted"], "note": "proved for every tuple of components without nested brackets, and for nested ones with no comma after a nested closing bracket and no group that is the tail of another; false otherwise"},
{"property": "C30", "status": "partial", "theorems": ["C30_last_wins_partial", "C30_case", "C30_alias", "C30_lookup_refuted"], "note": "proved for plain names and every registration of a struct, enum, set or resolvable alias; false for aliases of other generics or of later names, for names starting with BoundedBTreeSet, and for repeated V14 types"},
{"property": "C31", "status": "proved", "theorems": ["C31_versions"], "note": ""},
{"property": "C32", "status": "partial", "theorems": ["C32_serial_partial", "C32_plain", "C32_present_partial", "C32_lost_refuted", "C32_overwritten_refuted"], "note": "For any number of goroutines and any schedule of lock operations the outcome is that of some sequential order, as long as no name gets version ranges from two goroutines; plain names always. False otherwise: the read and the write of a versioned name are under separate locks, so that a range is lost, and append writes into a shared backing array."},
{"property": "C33", "status": "partial", "theorems": ["C33_override_partial", "C33_capitals_refuted", "C33_versions_refuted"], "note": "false for override tables keyed with capitals and for versioned override targets"},
{"property": "C34", "status": "proved", "theorems": ["C34_names", "C34_values", "C34_gap_refuted", "C34_duplicates_refuted"], "note": "For every list of variants with distinct indices below 256, in any order and with any gaps: the variant of byte i is the one declared i, for enums of plain names and enums whose variants carry data. Beyond the claim: a byte between two declared indices decodes to the map {empty: nil} instead of failing (C34_gap_refuted), and repeated indices shift the later variants (C34_duplicates_refuted)."},
{"property": "C35", "status": "proved", "theorems": ["C35_pallet"], "note": "For every non-empty set of pallets with distinct indices below 256, provided no version range of OriginCaller was registered. The origin is nil unless the pallet's name is in KnownOrigins; a byte between two pallets gives EMPTYi, a byte above all of them panics."},
{"property": "C36", "status": "partial", "theorems": ["C36_v14", "C36_v14_only", "C36_decoded", "C36_v13", "C36_counted_partial", "C36_counted_refuted"], "note": "Proved for V14 and V15 (also through the decoding of a Call), V12, V13 and V8 to V11. V6 and V7 only when no module announces calls (events) and lists none: such a module is not counted, so later modules are found one index too low."},
{"property": "C37", "status": "partial", "theorems": ["C37_bare", "C37_signed_partial", "C37_v5_refuted", "C37_order_refuted", "C37_tip_refuted", "C37_address_refuted"], "note": "Proved for every bare extrinsic of version 4 or 5, and for every signed one of version 4 whose signer type reads what it writes, with the tip before all other extensions, and the extension map walked in metadata order. False otherwise: version 5 drops the signature part, the order of a Go map decides the order of the extensions, the tip is always written first, and before V14 an AccountId that starts with ff is read as an Address."},
{"property": "C38", "status": "proved", "theorems": ["C38_hash"], "note": ""},
{"property": "C39", "status": "proved", "theorems": ["C39_events", "C39_unknown"], "note": "For every event table, metadata version and list of records whose arguments are SCALE encodings at the event's argument types: the decoder returns one record per record, numbered from 0 in order, with phase, extrinsic index, index bytes, module and event name, parameters with types and names, raw parameter bytes and topics; trailing bytes are ignored. An index not in the table panics. The registry must resolve U32, Hash and Vec<Hash> to the built-ins, proved for the built-in registry (base_event_env)."},
{"property": "C40", "status": "partial", "theorems": ["C40_changes", "C40_self_partial", "C40_self_refuted"], "note": "C40_changes characterises the whole result of Compare (new modules, new and changed calls and events) for metadata with distinct names. Self comparison reports nothing when every argument type's description returns; C40_self_refuted: a type whose description loops or panics makes Compare do so too."},
{"property": "C41", "status": "partial", "theorems": ["C41_returns_partial", "C41_returns_refuted"], "note": "Proved for types that contain themselves only through fields, options and vectors under a struct or enum. False in general: recursion through a fixed array, a map, a result, or a vector alias never returns."},
{"property": "C42", "status": "partial", "theorems": ["C42_sixteen", "C42_exact_partial", "C42_close_partial", "C42_outside", "C42_named", "C42_named_outside", "C42_fixed_u64_partial", "C42_fixed_i128_partial", "C42_refuted", "C42_fixed_u64_refuted"], "note": "Exact for every number of the width up to precision 16, and whenever the cut number has at most 16 decimals; within 2^-54 up to precision 53. SubstrateFixedU64 is exact below 2^63, SubstrateFixedI128 except for the least number. Refuted: 17 digits can print a neighbouring decimal, 63 digits change sign, 64 digits panic, the least number of the width and SubstrateFixedU64 from 2^63 on come back unconverted. Precisions 54 to 62 are not covered."},
{"property": "C43", "status": "partial", "theorems": ["C43_checksum", "C43_decoded", "C43_keeps", "C43_keccak", "C43_case_refuted"], "note": "For every 20-byte address given in lower case, with or without 0x, the result is the EIP-55 text (any 32-byte hash, and the package's own Keccak-256). For any 40 hex digits in any case only letter case changes. Refuted: capitals in the input are hashed as they stand, so a checksummed address gets a different checksum."},
{"property": "C44", "status": "proved", "theorems": ["C44_any_permutation", "C44_history", "C44_pieces", "C44_unaligned"], "note": "The sponge against the FIPS 202 construction (SpecSponge.v), for every history of Write, Sum and Reset, every permutation and rate, and for the hash functions of the package with Keccak-f. C44_unaligned: the little-endian xorIn/copyOut equal the portable ones."},
{"property": "C45", "status": "partial", "theorems": ["C45_lower", "C45_hex_partial", "C45_hex_refuted"], "note": "lower case always; bare hex when the strings given are hex; other text is copied through"},
{"property": "C46", "status": "proved", "theorems": ["C46_unique"], "note": ""},
{"property": "C47", "status": "partial", "theorems": ["C47_refused_partial", "C47_refused_wide_partial", "C47_narrow", "C47_refused_refuted"], "note": "proved for out-of-range big integers given to u128, i128 and i256; the narrower types encode other Go types as zero and truncate out-of-range values"},
{"property": "C48", "status": "proved", "theorems": ["C48_lookup"], "note": ""},
{"property": "C49", "status": "proved", "theorems": ["C49_permutation"], "note": "keccakf.go transcribed statement by statement (four unrolled rounds) and proved equal to the bit-level definition of FIPS 202 (SpecKeccak.v). The assembly version is the subject of C77."},
{"property": "C50", "status": "partial", "theorems": ["C50_reads", "C50_clone_partial", "C50_clone_refuted"], "note": "Reads in pieces and the refusal of later writes are proved for all hash functions. Cloning while reading is right only for rate 168; C50_clone_refuted: for SHAKE256 the copy panics or repeats output, because cap(buf) counts to the end of the storage."},
{"property": "C51", "status": "partial", "theorems": ["C51_keys_partial", "C51_v15_refuted"], "note": "Proved for V14 (a registry read from metadata holds no empty tuple definition: C64). V15 splits a tuple key under a single hasher."},
{"property": "C52", "status": "partial", "theorems": ["C52_decoded", "C52_bare_refuted"], "note": "Proved with the length prefix for every extrinsic, and without it whenever the body's own first bytes do not read as its length; the bare version 5 body 05 00 03 does, and is refused."},
{"property": "C53", "status": "proved", "theorems": ["C53_vec", "C53_map"], "note": "Length prefixes above the limit panic, for every element type, position and continuation."},
{"property": "C54", "status": "partial", "theorems": ["C54_decode", "C54_roundtrip_partial", "C54_refuted", "C54_unknown"], "note": "Decoding is exact for all three forms, against an RFC 3629 specification of UTF-8. The round trip holds for text and for one byte; other non-UTF-8 bytes are written back as the text of their hex form, and an index above 37 decodes to nil without an error, for every such index."},
{"property": "C55", "status": "partial", "theorems": ["C55_encode", "C55_roundtrip_partial", "C55_too_few", "C55_unknown", "C55_map", "C55_map_last", "C55_box_inside", "C55_roundtrip_refuted"], "note": "Encoding of a BoxCall value is exact; a call given as a map encodes as the BoxCall with the values JSON makes of its own (C55_map); so does a BoxCall inside a map (C55_box_inside), and of keys that differ in letter case the last counts (C55_map_last). Decoding gives it back when the arguments resolve to the same types inside the pallet; in the pallet Assets a Balance does not (C55_roundtrip_refuted)."},
{"property": "C56", "status": "partial", "theorems": ["C56_history", "C56_own_version_partial", "C56_spec0", "C56_alias_refuted", "C56_return_refuted"], "note": "Proved for every history of structs and enums that registers without a panic (names not differing only in case). Refuted for aliases (wrapper types): a changed target with the same description, for example renamed fields, is not noticed; and a known unchanged type ends the whole registration call."},
{"property": "C57", "status": "proved", "theorems": ["C57_safe"], "note": ""},
{"property": "C58", "status": "partial", "theorems": ["C58_u256", "C58_s256", "C58_signed", "C58_exp", "C58_byte", "C58_read_bits", "C58_padded", "C58_u256_bytes", "C58_first_bit", "C58_max_min", "C58_pow", "C58_exp_base_refuted"], "note": "All values are exact. The documentation's claim that Exp does not change base is refuted: base is squared in place."},
{"property": "C59", "status": "partial", "theorems": ["C59_text", "C59_range", "C59_digits", "C59_unmarshal", "C59_must", "C59_negative_refuted"], "note": "Proved for non-negative numbers and for Decimal256 of either sign; HexOrDecimal256 writes a negative number as -0x..., which it does not read."},
{"property": "C60", "status": "partial", "theorems": ["C60_alias_partial", "C60_meaning", "C60_alias_refuted"], "note": "Proved for the listed wrappers and for arrays whose element text has no semicolon (up to the letter case of an array's element text). Refuted for arrays of arrays, Result, Box and Range: such an alias registers nothing although the text has a decoder."},
{"property": "C61", "status": "partial", "theorems": ["C61_portable_types_decode_partial", "C61_later_registration", "C61_option_bool_refuted", "C61_newtype_refuted", "C61_wrapper_refuted", "C61_event_refuted", "C61_tuples_refuted"], "note": "Proved for every registry all of whose covered types meet `regular` and `well_named` (SpecPortable.v), by an invariant over the four passes of the registration and an induction over the encodings. Refuted outside: Option<bool> is read in a one-byte form, a one-field struct over a Result or over nested arrays is never registered under its name, an opaque wrapper around a primitive takes that primitive's name away, an enum called Event is taken for a call, tuples of different types may share a name. i8, floats and ranges are not covered."},
{"property": "C62", "status": "partial", "theorems": ["C62_names_differ_partial", "C62_distinct_partial", "C62_registered_names_differ_partial", "C62_case_refuted", "C62_gap_refuted"], "note": "Proved for paths without @ of which no two differ only in letter case, and ids that are counted. Refuted for paths that differ only in case (the registry lower-cases names) and for ids with gaps (types beyond the count are not counted)."},
{"property": "C63", "status": "proved", "theorems": ["C63_string_to_int"], "note": "decimal is a separate inductive description of signed positional numerals"},
{"property": "C64", "status": "proved", "theorems": ["C64_registry", "C64_from_metadata", "C64_none"], "note": "registry_enc and declared (SpecMeta.v) are a separate description of the wire format and of what is kept of it"},
{"property": "C65", "status": "proved", "theorems": ["C65_v14", "C65_metadata", "C65_free_refuted"], "note": "C65_free_refuted: the last condition is needed. Conditions: the call, event and error ids of the pallets are enums of the registry, constants have named types, storage keys have one hasher or as many as a tuple has parts, indices are distinct, and no declared type has a one-segment path that is one of the names metadata is read with (such a declaration replaces the built-in)"},
{"property": "C66", "status": "proved", "theorems": ["C66_header", "C66_sound", "C66_not_metadata", "C66_old_versions", "C66_new_versions"], "note": ""},
{"property": "C67", "status": "proved", "theorems": ["C67_call", "C67_events", "C67_call_v15", "C67_events_v15"], "note": "conditions collected in the record runtime (PropRuntime.v); they include the conditions of C61 on the declared types; C67_runtime is a runtime that meets them"},
{"property": "C68", "status": "partial", "theorems": ["C68_v15_partial", "C68_metadata_partial", "C68_custom_refuted", "C51_v15_refuted"], "note": "proved under C65's conditions and two more: a tuple key has one hasher per part (without it C51_v15_refuted), and no type has the path BTreeMap or CustomValueMetadata15 alone. C68_custom_refuted: a runtime that uses exactly one map type declares such a BTreeMap, which replaces the library's own, and its custom values are silently read as something else"},
{"property": "C69", "status": "partial", "theorems": ["C69_metadata_partial", "C69_call", "C69_events", "C69_v9_refuted", "C69_v11_refuted"], "note": "calls and events (C69_call, C69_events) and both tables without restriction for indices that are distinct; C69_metadata_partial leaves out two things that are false: hashers of version 9 above number 1 are shown under wrong names (C69_v9_refuted: Twox128 becomes Blake2_128Concat) and the signed extensions of version 11 are not read (C69_v11_refuted)"},
{"property": "C70", "status": "proved", "theorems": ["C70_start_registry", "C70_as_described", "C70_ready"], "note": "the text of BaseType is transcribed entry by entry into the model; encoding/json is trusted to read it"},
{"property": "C71", "status": "partial", "theorems": ["C71_custom_partial", "C71_order_refuted", "C71_lost_refuted"], "note": "true for files in which every alias names a struct, enum or set of the file or a text the file does not define (C71_custom_partial); false in general: with Hash redefined, Mid an alias of Hash and Foo an alias of Mid, Foo decodes as 32 bytes or as one byte depending on the order (C71_order_refuted), and in a chain of five aliases the first may stay unregistered (C71_lost_refuted)"},
{"property": "C72", "status": "partial", "theorems": ["C72_known", "C72_shipped_partial", "C72_unknown_refuted"], "note": "if the names a set of types asks for are all registered, no input of these types ends in an unknown type (C72_known, any registry); the shipped definitions are such a set except for 29 of them, in every pallet but ethereum and bridgemultisig (C72_shipped_partial); each of the 29 has an input that panics with Not found decoder class, e.g. VersionedXcm with a V2 execution result or a V3 ExpectError, and Timepoint panics in the pallet BridgeMultisig (C72_unknown_refuted)"},
{"property": "C73", "status": "proved", "theorems": ["C73_consistent", "C73_lookup", "C73_listed"], "note": "for every byte string below 2^60 bytes that ProcessMetadata accepts; no assumption that the bytes come from a runtime"},
{"property": "C74", "status": "partial", "theorems": ["C74_contracts", "C74_declared", "C74_runtime", "C74_prefixes", "C74_reuse", "C74_unnamed", "C74_case_refuted", "C74_tuple_refuted", "C74_counts_refuted"], "note": "the declarations must meet the conditions of C61; refuted for prefixes that differ in letter case only, and for prefixes b and u8b, where (u8, b:X) and (u8b:X,) share one name; refuted also for a decoder that holds counts of names from before"},
{"property": "C75", "status": "partial", "theorems": ["C75_unsigned", "C75_compact", "C75_compact_u32", "C75_wide", "C75_integers", "C75_signed_pattern", "C75_signed_refuted", "C75_range_refuted"], "note": "refuted for i8 to i64, which write the low bytes of the bit pattern (every non-zero number up to a million becomes 0 as i32), for u128 and u256, which panic, above 2^53 for Compact (2^62 becomes 4611686018427388000) and for numbers out of range, which wrap"},
{"property": "C76", "status": "partial", "theorems": ["C76_registers", "C76_contract", "C76_metadata14", "C76_metadata15_partial", "C76_runtime14", "C76_variant_refuted", "C76_char_refuted", "C76_circle_refuted", "C76_option_refuted", "C76_range_refuted"], "note": "refuted for the primitive type char, which scale-info allows and no order of loading the shipped definitions knows, for enums without a path, options without a parameter and structs around a Range, which panic, and for structs that stand for each other in a circle, where the recursion never ends; V15 as far as C68 goes"},
{"property": "C77", "status": "proved", "theorems": ["C77_amd64", "C77_touches", "C77_permutation", "C77_apart_refuted"], "note": "C77_apart_refuted shows that the hypothesis that state and frame lie apart is needed; the Go runtime guarantees it"},
{"property": "C78", "status": "proved", "theorems": ["C78_listed", "C78_alone", "C78_any", "C78_keys_refuted"], "note": "C78_keys_refuted is the witness for the exception the statement makes: a call that is the key of a map is listed but not in the value. Without such keys (plain_keys) the list is exactly that of the calls in the value. C78_any needs no well-formed input: it holds whenever decoding succeeds"},
{"property": "C79", "status": "proved", "theorems": ["C79_reuse", "C79_fresh", "C79_same", "C79_runs", "C79_calls", "C79_listed", "C79_pallet_refuted", "C79_address_refuted", "C79_calls_refuted"], "note": "C79_reuse is the exact description for an arbitrary state of the decoder; C79_runs the case without difference for any number of runs. The three _refuted theorems are witnesses for the three exceptions: an extrinsic that is decoded, and one that panics after a call of the pallet Assets; an extrinsic signed by an account index that is shown with the account of the one before; calls of earlier extrinsics in InternalCall"},
{"property": "C80", "status": "partial", "theorems": ["C80_same_partial", "C80_as_described", "C80_order_refuted"], "note": "Proved for fifty of the fifty-four files. For crab, darwinia, pangolin and sora it is false, C80_order_refuted: read forwards or backwards, crab shows a RelayAuthoritySigner in lower case or with the checksum of an address, sora shows a MultiCurrencyBalanceOf as a text or as a decimal"},
{"property": "C81", "status": "partial", "theorems": ["C81_again_partial", "C81_through_json_partial", "C81_again_refuted"], "note": "Proved for the calls described by `wire` (PropBox.v): every value survives JSON or is taken by Encode in the form JSON gives it. Refuted outside: a u64 from 2^53 loses its last bits, i32 and u256 come out as other bytes, i128 in the wrong byte order."},
{"property": "C82", "status": "proved", "theorems": ["C82_v14", "C82_v15", "C82_at_once", "C82_old", "C82_old_at_once", "C82_same_decoding", "C82_unchanged_refuted"], "note": "Simulation of the second registration by the first (process_twice). C82_unchanged_refuted: the exceptions are real, a type of path `call` makes RuntimeCall mean something else after the second reading. C82_old: versions 9 to 13, in every registry the metadata can be read in; these register only OriginCaller, in V13."},
{"property": "C83", "status": "proved", "theorems": ["C83_reuse", "C83_history", "C83_runs", "C83_spec_refuted"], "note": "std_env: the names Compact<u32>, u8 and null are the library's own. C83_spec_refuted shows the trace."},
{"property": "C84", "status": "partial", "theorems": ["C84_known_partial", "C84_known_refuted"], "note": "Proved for fifty of the fifty-four files (the four whose meaning depends on the order, C80, are left out), outside pallets and without metadata, for all but fifteen definitions in seven files; C84_known_refuted gives for each of the fifteen an input that ends with an unknown name, in every order. For karura's PoolInfo the cause is the library: BTreeMap<OrmlCurrencyId, (Balance, Balance)> is split at the comma of the tuple."},
{"property": "C85", "status": "partial", "theorems": ["C85_agree_partial", "C85_serial_partial", "C85_finishes", "C85_alias_refuted", "C85_versions_refuted"], "note": "Proved without spec version when the goroutines agree on every name they share and no alias is for a name that is itself being declared. Both conditions are needed: the check of V14Types and the registration are separate steps, so an alias can be lost for good although both goroutines read the same metadata (C85_alias_refuted), and of two runtimes one can lose its layout (C85_versions_refuted)."},
{"property": "C86", "status": "proved", "theorems": ["C86_away", "C86_alone", "C86_torn_refuted"], "note": "The names a decode asks for are given as a set of type texts closed under the lookups of its members (looked_up, asks). The registry is read anew at each of the two lock operations of every lookup."},
{"property": "C87", "status": "partial", "theorems": ["C87_encode_partial", "C87_call_partial", "C87_unit_refuted", "C87_empty_refuted", "C87_some_refuted", "C87_hex_refuted"], "note": "For values meeting `writable` (SpecPortable.v), which names what Encode cannot write: signed integers and bit sequences (C06, C25), texts that are not printable ASCII or longer than 2^30, byte lists whose text looks like a hexadecimal number (C87_hex_refuted), lists of 2^30 elements, compact numbers from 2^63 (2^30 for u32), present options that look like nil (C87_some_refuted), structs around the unit type (C87_unit_refuted), variants named \"empty\" (C87_empty_refuted) or sharing their name."},
{"property": "C88", "status": "partial", "theorems": ["C88_container", "C88_bounded_partial", "C88_bounded_decode", "C88_box", "C88_bounded_refuted"], "note": "Bounded lists only when the size stands nowhere else after a comma: BoundedVec<BoundedVec<u8, S>, S> cannot be decoded (C88_bounded_refuted). Texts that ConvertType leaves alone."},
{"property": "C89", "status": "proved", "theorems": ["C89_away", "C89_alone", "C89_torn_refuted"], "note": "The names an encode asks for are given as a set of type texts closed under the lookups of its members (looked_up, writes) that has the arguments of all calls of the metadata."},
{"property": "C90", "status": "partial", "theorems": ["C90_key_partial", "C90_key", "C90_map", "C90_option_refuted", "C90_hex_refuted", "C90_signed", "C90_signed_map", "C90_i8_refuted"], "note": "Signed keys of 2 to 32 bytes are told apart (C90_signed, C90_signed_map: keys that are signed integers themselves); all i8 keys are shown as 0 (C90_i8_refuted). Structures with negative numbers inside, floats and texts that are not UTF-8 are not covered. Option keys: C90_key_partial when both keys, or neither, are shown as texts."},
{"property": "C91", "status": "proved", "theorems": ["C91_map", "C91_number_refuted", "C91_nan_refuted"], "note": "The exceptions named in the statement are C91_number_refuted and C91_nan_refuted."},
{"property": "C92", "status": "proved", "theorems": ["C92_sums", "C92_streams", "C92_shake", "C92_reset"], "note": "The specification is that of C44 and C49 with the parameters of FIPS 202, section 6."},
{"property": "C93", "status": "partial", "theorems": ["C93_differ", "C93_eq", "C93_decodes", "C93_calls_partial", "C93_events_partial", "C93_variant_refuted", "C93_deep_refuted", "C93_bool_refuted", "C93_unknown_refuted"], "note": "Proved for types made of numbers, hashes, byte strings, options, vectors, arrays, maps, results, tuples, structs and enums with at most one field per variant, structs and enums nested at most five deep (SpecShape.v, formed, fits), decoded with spec version 0 and outside of module overrides. False in general: the fields of a variant with several fields are not compared, nor what lies six structs deep; Option<bool> and Option<Bool> are taken for the same; Compact<u32> is taken for any type that does not exist. Left out: Moment, sets, floats, bit vectors, calls."},
{"property": "C94", "status": "proved", "theorems": ["C94_order", "C94_roundtrip", "C94_call", "C94_arguments", "C94_declared", "C94_runtime", "C94_enum_refuted", "C94_data_refuted"], "note": "The two _refuted theorems are the exceptions the statement names: a map with two names for an enum, and one for identity Data. Values are those of the encodable SCALE relation (C16), without module overrides; the map of a call has keys that are valid UTF-8."},
{"property": "C95", "status": "partial", "theorems": ["C95_fields", "C95_variant", "C95_missing_nil", "C95_absent", "C95_refused_partial", "C95_missing_refuted"], "note": "That other keys do not count is proved for every outcome. A missing field counts as nil; C95_absent gives what is written for nil under every decoder. Refusal holds where the decoder refuses nil (C95_refused_partial) and is false otherwise: C95_missing_refuted has a hash left out of the text and an amount written as zero."},
{"property": "C96", "status": "partial", "theorems": ["C96_size_partial", "C96_array_partial", "C96_size_refuted"], "note": "Proved for integers, bool and the structs and tuples of them, for every value, and for arrays given as slices. False for hashes, byte arrays, U256 and enums (C96_size_refuted): short texts are copied as they are, and an unknown variant writes nothing."},
{"property": "C97", "status": "proved", "theorems": ["C97_size", "C97_array", "C97_vec", "C97_float_refuted"], "note": "C97_float_refuted is the exception the statement names. Enums without explicit numbers refuse unknown indices (C27) and have no fixed size in general; they are not covered."},
{"property": "C98", "status": "partial", "theorems": ["C98_bytes_partial", "C98_injective_partial", "C98_bytes_refuted", "C98_short_refuted"], "note": "Proved for unsigned integers, hashes, account ids, eras, and the structs, tuples, arrays, enums and Results made of them, whenever at least one byte follows the value. Refuted otherwise: 02 decodes as false, any flag but 00 as a present option, lengths need not be in the shortest form, Moment is cut to seconds, a Balance of all ones is -1, which is not encoded; at the end of the buffer missing bytes are taken as zeros (C98_short_refuted)."},
{"property": "C99", "status": "partial", "theorems": ["C99_files", "C99_last", "C99_order", "C99_literal_partial", "C99_literal_refuted"], "note": "The written literal is the JSON text when that has no back quote; with one in a type text it ends there (C99_literal_refuted)."}
]}
