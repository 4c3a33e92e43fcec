{"id": "C01", "title": "Reads never leave the buffer and never lose or repeat a byte", "statement": "For a ScaleBytes cursor, any sequence of GetNextBytes calls with non-negative lengths returns slices whose concatenation is exactly the consumed prefix; the offset never decreases and never exceeds the buffer length; a call asking for more than what is left returns exactly the remainder and does not panic.", "quantifier": "every buffer, every start offset within it, every finite sequence of requested lengths (offset+length below 2^63)", "why_tests_cant": "the claim is about all buffers and all call histories; a test only exercises a few lengths", "anchors": ["types/scaleBytes/scaleBytes.go:GetNextBytes", "types/scaleBytes/scaleBytes.go:GetRemainingLength", "types/base.go:NextBytes"]}
{"id": "C02", "title": "Hex text and bytes convert without loss", "statement": "HexToBytes(BytesToHex(b)) = b for every byte slice, with or without the 0x prefix and in either letter case; BytesToHex always has even length, is lower case and is injective; malformed text of length n still yields n/2 bytes.", "quantifier": "every byte slice and every string", "why_tests_cant": "256^n inputs; the malformed-text clause ranges over all strings", "anchors": ["utiles/tools.go:HexToBytes", "utiles/tools.go:BytesToHex", "utiles/tools.go:AddHex", "utiles/tools.go:TrimHex"]}
{"id": "C03", "title": "ReverseBytes reverses", "statement": "ReverseBytes(b) is b in reverse order.", "quantifier": "every byte slice of every length", "why_tests_cant": "holds on all even-length inputs the tests use and fails only on odd lengths with a non-zero middle byte", "anchors": ["utiles/tools.go:ReverseBytes", "utiles/tools.go:U256DecoderToBigInt"]}
{"id": "C04", "title": "Unsigned integers are little-endian fixed width", "statement": "For a value v given as a Go type the codec accepts, Encode(\"u8|u16|u32|u64|u128|u256\", v) is the hex of the n-byte little-endian form of v, and decoding those bytes, wherever they sit in a buffer, yields v again and consumes exactly n bytes.", "quantifier": "every value in range of each width, every surrounding buffer", "why_tests_cant": "2^256 values times all buffers", "anchors": ["types/Uint.go:U8", "types/Uint.go:U16", "types/Uint.go:U32", "types/Uint.go:U64", "types/Uint.go:U128", "types/Uint.go:U256"]}
{"id": "C05", "title": "Signed integers decode as two's complement", "statement": "Decoding n bytes as i8..i256 yields the two's complement value of those bytes.", "quantifier": "every byte string of the right length, for each width 1,2,4,8,16,32", "why_tests_cant": "exactly one value per width (the minimum), and one whole width (i8), deviate; random tests miss the former", "anchors": ["types/Int.go:IntFixed.Process", "utiles/tools.go:ReverseBytes"]}
{"id": "C06", "title": "Signed integers encode as little-endian two's complement and round-trip", "statement": "Encode(\"iN\", v) is the hex of the little-endian two's complement form of v, so that decoding it gives v.", "quantifier": "every value in range of each width", "why_tests_cant": "2^256 values; symmetric values (0, -1) hide a byte-order defect", "anchors": ["types/Int.go:IntFixed.Encode", "types/Int.go:BigIntToIntBytes"]}
{"id": "C07", "title": "128-bit unsigned addition, subtraction, multiplication, comparison and shifts are exact modulo 2^128", "statement": "For Uint128, Add/Sub/Mul (and the 64-bit variants) equal the integer operation modulo 2^128; Cmp/Equals agree with the integers; And/Or/Xor are bitwise; Lsh/Rsh equal multiplication/floor-division by 2^n for every shift amount.", "quantifier": "every pair of 128-bit values, every shift amount", "why_tests_cant": "2^256 operand pairs, carries and cross terms", "anchors": ["utiles/uint128/uint128.go"]}
{"id": "C08", "title": "128-bit division is exact and cannot panic for a non-zero divisor", "statement": "Uint128.QuoRem(v) returns q, r with u = q*v + r and 0 <= r < v for every u and every v <> 0, and no intermediate 64-bit division overflows; division by zero panics.", "quantifier": "every dividend and every non-zero divisor", "why_tests_cant": "the trial-quotient correction fires on a vanishing fraction of inputs", "anchors": ["utiles/uint128/uint128.go:QuoRem", "utiles/uint128/uint128.go:QuoRem64"]}
{"id": "C09", "title": "128-bit values print as their decimal digits", "statement": "Uint128.String() is the canonical base-10 numeral (no leading zeros, \"0\" for zero) of the value.", "quantifier": "every 128-bit value", "why_tests_cant": "zero-padding between 19-digit chunks matters only when a chunk has leading zeros", "anchors": ["utiles/uint128/uint128.go:String"]}
{"id": "C10", "title": "128-bit values convert to and from bytes and big integers without loss", "statement": "FromBytes(PutBytes(u)) = u and PutBytes is little-endian; FromBig(x.Big()) = x; FromBig panics exactly on negative or >128-bit input.", "quantifier": "every 128-bit value, every 16-byte string, every big integer", "why_tests_cant": "2^128 values", "anchors": ["utiles/uint128/uint128.go:PutBytes", "utiles/uint128/uint128.go:FromBytes", "utiles/uint128/uint128.go:FromBig", "utiles/uint128/uint128.go:Big"]}
{"id": "C11", "title": "Compact<u32> encodes every u32 canonically", "statement": "Encode(\"Compact<u32>\", v) is the hex of the canonical SCALE compact form of v, and decoding that form yields v and consumes exactly those bytes.", "quantifier": "every v in 0..2^32-1, every surrounding buffer", "why_tests_cant": "the failing sub-range starts at 2^30, far from the boundaries tests probe", "anchors": ["types/Compact.go:CompactU32"]}
{"id": "C12", "title": "Compact<u64>/Compact<u128>/Compact<Balance> decode every canonical compact integer", "statement": "Decoding the canonical compact form of v as Compact<u64>, Compact<u128> or Compact<Balance> yields v (as uint64 or decimal) and consumes exactly the canonical length.", "quantifier": "every value in range of the inner type, every surrounding buffer", "why_tests_cant": "2^128 values over four length modes", "anchors": ["types/Compact.go:Compact.ProcessCompactBytes", "types/Compact.go:Compact.Process", "types/types.go:Balance"]}
{"id": "C13", "title": "Compact integers encode canonically", "statement": "Encode(\"Compact<u64|u128|...>\", v) is the hex of the canonical compact form of v for v given as uint64, int, int64, decimal or decimal string.", "quantifier": "every non-negative value below 2^536", "why_tests_cant": "values whose low 64 bits look small or negative take the wrong branch; needs >= 2^63 inputs", "anchors": ["types/Compact.go:Compact.Encode"]}
{"id": "C14", "title": "Compact over narrow integers decodes the value that was encoded", "statement": "Decoding the canonical compact form of v as Compact<u8>, Compact<u16> or Compact<u256> yields v.", "quantifier": "every value in range of the inner type", "why_tests_cant": "only values needing a wider mode than the inner type are affected", "anchors": ["types/Compact.go:Compact.Process", "types/Uint.go:U8", "types/Uint.go:U16", "types/Uint.go:U256"]}
{"id": "C15", "title": "Decoding inverts SCALE encoding for every nested type", "statement": "If a type string resolves in the registry to a type built from bool, unsigned integers, compact integers, fixed hashes, hex bytes, Option, Vec, fixed arrays, structs/tuples, enums, Result, Box and Null, then decoding the SCALE encoding of any value of that type, followed by arbitrary bytes, yields the Go representation of the value and consumes exactly the encoding.", "quantifier": "every registry, every type of any nesting depth (recursive types included), every value, every suffix; within the limits the code itself sets (vectors up to 524288 elements, maps up to 1000 entries, non-empty fixed arrays, Result with one comma, distinct field and variant names)", "why_tests_cant": "unbounded type nesting and value sizes", "anchors": ["types/base.go:ProcessAndUpdateData", "types/Vectors.go", "types/Option.go", "types/Struct.go", "types/Enum.go", "types/FixedArray.go", "types/Results.go", "types/registry.go:GetCodecClass"]}
{"id": "C16", "title": "Encoding produces the SCALE encoding for every nested type", "statement": "For the same types, Encode of the Go representation of a value is the hex of its SCALE encoding, whenever no Option payload is an empty string or an empty slice and no compact integer reaches 2^63, no byte string prints as 0x text, and no length reaches 2^30.", "quantifier": "every registry, every type of any nesting depth, every value meeting the side condition", "why_tests_cant": "unbounded type nesting and value sizes", "anchors": ["types/base.go:EncodeWithOpt", "types/Vectors.go:Vec.Encode", "types/Option.go:Option.Encode", "types/Struct.go:Struct.Encode", "types/Enum.go:Enum.Encode"]}
{"id": "C17", "title": "Encode then decode returns the original value", "statement": "Decoding HexToBytes(Encode(t, v)) as t yields v with every byte consumed, for the types and values of the two previous properties.", "quantifier": "every registry, type and value as above", "why_tests_cant": "unbounded type nesting and value sizes", "anchors": ["types/base.go:Encode", "types/base.go:ProcessAndUpdateData"]}
{"id": "C18", "title": "Present-but-empty optional values survive encode and decode", "statement": "Encode(\"Option<T>\", v) for a present v starts with 01 so that it decodes to a present value again.", "quantifier": "every T and every value of T, including empty strings, empty vectors and nested options", "why_tests_cant": "requires T whose representation can be empty; Option<u32> never shows it", "anchors": ["types/Option.go:Option.Encode", "utiles/tools.go:IsNil"]}
{"id": "C19", "title": "Option<bool> uses the one-byte form", "statement": "Option<bool> encodes None/Some(true)/Some(false) as 00/01/02, and decoding these bytes yields nil/true/false consuming one byte.", "quantifier": "all three values, every surrounding buffer", "why_tests_cant": "the claim includes every suffix and offset", "anchors": ["types/Option.go"]}
{"id": "C20", "title": "Decoding does not depend on where the value starts", "statement": "Decoding a type at offset k of a buffer gives the same value and consumes the same number of bytes as decoding it at offset 0 of the buffer with its first k bytes removed.", "quantifier": "every registry, type string, buffer and offset", "why_tests_cant": "a decoder that reads from the start of the buffer passes every test that decodes at offset 0", "anchors": ["types/base.go:ProcessAndUpdateData", "types/Float.go", "types/types.go:GenericLookupSource"]}
{"id": "C21", "title": "Decoding depends only on the bytes it consumes", "statement": "If a decode leaves at least one byte unread, then cutting off or replacing the unread bytes does not change the decoded value or the number of bytes consumed.", "quantifier": "every registry, type string, buffer, offset and replacement tail", "why_tests_cant": "ranges over all types and all tails", "anchors": ["types/base.go:ProcessAndUpdateData", "types/scaleBytes/scaleBytes.go:GetNextBytes"]}
{"id": "C22", "title": "Truncated input is reported", "statement": "Decoding a strict prefix of a value's encoding panics instead of returning a value.", "quantifier": "every type, value and strict prefix", "why_tests_cant": "the set of truncation points is unbounded", "anchors": ["types/scaleBytes/scaleBytes.go:GetNextBytes", "types/Uint.go", "types/Option.go"]}
{"id": "C23", "title": "Decoding terminates on every input", "statement": "ProcessAndUpdateData returns or panics (no unbounded recursion) on every byte string, for every type of the registry.", "quantifier": "every registry, type string and input, including truncated input to recursive types", "why_tests_cant": "non-termination shows only for recursive types on particular truncated inputs", "anchors": ["types/base.go:ProcessAndUpdateData", "types/Option.go:Option.Process", "types/Struct.go:Struct.Process"]}
{"id": "C24", "title": "Byte-string values survive decode then encode", "statement": "Re-encoding the value decoded from the encoding of a byte string as Bytes, HexBytes, String or [u8; n] gives the original bytes.", "quantifier": "every byte string", "why_tests_cant": "printable data beginning with 0x and non-ASCII UTF-8 are the only failing inputs", "anchors": ["types/Bytes.go", "types/FixedU8.go", "types/FixedArray.go", "utiles/tools.go:IsASCII"]}
{"id": "C25", "title": "Bit vectors survive encode then decode", "statement": "Decoding Encode(\"BitVec\", v) yields v.", "quantifier": "every bit string of whole bytes, any number of bytes", "why_tests_cant": "single-byte vectors round-trip; longer ones do not", "anchors": ["types/types.go:BitVec"]}
{"id": "C26", "title": "Flag sets decode to exactly the set bits", "statement": "A set type with bit length 8, 16, 32 or 64 decodes to the names of exactly the bits set in the integer, in order.", "quantifier": "every flag list, every integer of the width", "why_tests_cant": "depends on the Go dynamic type the inner decoder returns and on the sign bit", "anchors": ["types/Set.go"]}
{"id": "C27", "title": "Enums decode to the variant with the given index or fail", "statement": "Decoding an enum yields the variant whose index is the first byte; an index with no variant panics.", "quantifier": "every enum definition and every first byte", "why_tests_cant": "unknown discriminants range over all enums", "anchors": ["types/Enum.go:Enum.Process"]}
{"id": "C28", "title": "Zero-length arrays occupy no bytes", "statement": "Decoding [T; 0] consumes nothing, matching its empty encoding.", "quantifier": "every element type, every buffer", "why_tests_cant": "ranges over all T and buffers", "anchors": ["types/FixedArray.go"]}
{"id": "C29", "title": "Tuple type strings split at their top-level commas", "statement": "For a tuple type string, the decoded fields col1..coln are exactly the top-level components of the tuple.", "quantifier": "every tuple of balanced component type strings at any nesting depth", "why_tests_cant": "the splitting expression is wrong only when a comma follows a nested closing bracket inside an element", "anchors": ["types/base.go:buildStruct"]}
{"id": "C30", "title": "Type names resolve independently of letter case and the last registration wins", "statement": "After registering a custom type under a name, looking up that name in any letter case returns that definition until another registration of the same name; registrations of other names do not affect it.", "quantifier": "every registry, every name and every sequence of registrations", "why_tests_cant": "ranges over histories of registrations", "anchors": ["types/registry.go:getCodecInstant", "types/customType.go:regCustomKey", "types/registry.go:HasReg"]}
{"id": "C31", "title": "Versioned types apply exactly in their spec range", "statement": "A type registered as Name#lo-hi (or lo-?) is used for Name exactly when the spec version is within lo..hi (hi defaulting to 99999999) and no earlier-registered range contains it; outside all ranges the unversioned definition is used.", "quantifier": "every sequence of registrations, every spec version", "why_tests_cant": "ranges over all range sets and versions", "anchors": ["types/customType.go:regCustomKey", "types/registry.go:specialVersionCodec"]}
{"id": "C32", "title": "Concurrent registrations are not lost", "statement": "When several goroutines register types concurrently, every registration is effective once all have finished.", "quantifier": "every number of goroutines and every schedule of their lock operations", "why_tests_cant": "the losing schedules need a precise interleaving between a read lock and a write lock", "anchors": ["types/customType.go:regCustomKey"]}
{"id": "C33", "title": "Per-module type overrides apply", "statement": "For every module listed in the override table, decoding inside that module uses the overriding type.", "quantifier": "every module and type pair of the table, in every letter case of the module name", "why_tests_cant": "a lookup whose key can never match produces no error", "anchors": ["types/override/override.go:ModuleType", "types/registry.go:getCodecInstant"]}
{"id": "C34", "title": "Enum variants keep their on-chain index", "statement": "For an enum of runtime metadata V14 with distinct variant indices below 256, decoding a first byte i selects the variant whose declared index is i, whatever the order and the gaps of the indices.", "quantifier": "every list of variants with distinct indices, every first byte", "why_tests_cant": "all sparse index sets, any declaration order", "anchors": ["types/scaleInfo.go:expandEnum", "types/Enum.go:Enum.Process"]}
{"id": "C35", "title": "OriginCaller variants keep their pallet index", "statement": "The OriginCaller type registered from metadata selects, for byte i, the pallet with index i.", "quantifier": "every set of pallets with distinct indices", "why_tests_cant": "all sparse index sets", "anchors": ["types/v13.go:registerOriginCaller"]}
{"id": "C36", "title": "Call and event lookups are unambiguous", "statement": "With distinct pallet indices and distinct variant indices, the two-byte key built for (pallet i, variant j), i,j < 256, is the hex of [i;j] and the lookup table maps it to exactly that pallet and variant.", "quantifier": "every metadata with distinct indices", "why_tests_cant": "all index combinations; collisions would only appear for particular pairs", "anchors": ["types/v14.go:MetadataV14Decoder.Process", "types/metadata.go"]}
{"id": "C37", "title": "Extrinsics encode then decode to the same content", "statement": "Decoding the bytes of GenericExtrinsic.Encode yields the same version, signer, signature, era, nonce, tip, call and parameters.", "quantifier": "every metadata, every extrinsic whose parts encode", "why_tests_cant": "ranges over all calls, argument types and signed extensions", "anchors": ["extrinsic.go:Process", "extrinsic.go:Encode"]}
{"id": "C38", "title": "The extrinsic hash does not depend on the length prefix", "statement": "An extrinsic given with its SCALE length prefix and the same extrinsic without it produce the same hash.", "quantifier": "every extrinsic body shorter than 2^30 bytes whose own first bytes are not its length", "why_tests_cant": "ranges over all bodies", "anchors": ["extrinsic.go:generateHash", "extrinsic.go:Process"]}
{"id": "C39", "title": "Event decoding yields every event once, in order", "statement": "Decoding an event blob of n records returns n records with event_idx 0..n-1 in order, each with the phase, index, parameters and topics of the corresponding record.", "quantifier": "every metadata, every list of well-formed records", "why_tests_cant": "unbounded record counts", "anchors": ["event.go:EventsDecoder.Process", "event.go:EventRecord.Process"]}
{"id": "C40", "title": "Comparing metadata with itself reports no change", "statement": "Compare(m, m) reports no new modules, calls or events and no changes, and every reported change names a call or event present in both with a differing argument type.", "quantifier": "every metadata with distinct names", "why_tests_cant": "ranges over all metadata", "anchors": ["types/compare.go:Compare", "types/base.go:Eq"]}
{"id": "C41", "title": "Structural type description terminates", "statement": "TypeStructString returns for every registered type, recursive ones included.", "quantifier": "every registry and type string", "why_tests_cant": "the recursion guard is not threaded through all containers", "anchors": ["types/base.go:getTypeStructString", "types/Struct.go:TypeStructString", "types/FixedArray.go:TypeStructString", "types/BTreeMap.go:TypeStructString"]}
{"id": "C42", "title": "Fixed-point values are the integer divided by 2^lower, cut to precision bits", "statement": "parserFixPoint with the given numbers of integer and fraction bits (lower), and so ParseI16F16, ParseI32F32, ParseI64F64 and the decoded SubstrateFixedU64 and SubstrateFixedI128, print v / 2^lower with the fraction cut toward zero after `precision` binary digits, and print that number exactly.", "quantifier": "every integer of the width, every split into integer and fraction bits, every precision", "why_tests_cant": "2^128 values", "anchors": ["utiles/encointer/parserFixPoint.go", "types/specType.go"]}
{"id": "C43", "title": "Ethereum checksum addresses keep the address", "statement": "ethereum.Encode changes nothing but letter case, and the case of each letter is determined by the Keccak-256 of the lower-case address as EIP-55 prescribes.", "quantifier": "every 20-byte address, every hash function", "why_tests_cant": "2^160 addresses", "anchors": ["utiles/crypto/ethereum/encode.go", "types/types.go:EthereumAddress"]}
{"id": "C44", "title": "Hashing in pieces equals hashing at once", "statement": "For the Keccak/SHA-3 sponge, any sequence of Write calls followed by Sum gives the digest of the concatenation, and Sum does not disturb later Writes.", "quantifier": "every permutation, rate, message and way of splitting the message", "why_tests_cant": "all splits of all messages", "anchors": ["pkg/go-ethereum/crypto/sha3/sha3.go"]}
{"id": "C45", "title": "Encoded text is bare lower-case hex", "statement": "Encode never returns a 0x prefix introduced by a codec or an upper-case letter.", "quantifier": "every type string and value", "why_tests_cant": "all types and values", "anchors": ["types/base.go:EncodeWithOpt"]}
{"id": "C46", "title": "De-duplication keeps first occurrences in order", "statement": "UniqueSlice returns the distinct entries in order of first occurrence.", "quantifier": "every slice of strings", "why_tests_cant": "all slices", "anchors": ["utiles/tools.go:UniqueSlice"]}
{"id": "C47", "title": "Encode refuses what it cannot represent", "statement": "Encode of an integer type with a value of an unsupported Go type or outside the range of the type panics instead of returning some other value's encoding.", "quantifier": "every integer type, every value", "why_tests_cant": "the set of rejected values is infinite and a silent truncation shows only on the values nobody listed", "anchors": ["types/Uint.go", "types/Int.go", "types/Compact.go", "types/base.go:Encode"]}
{"id": "C48", "title": "Looking up a type string always returns", "statement": "Resolving a type string to a decoder returns a decoder, reports not found, or panics; it never recurses without bound, whatever namespaces and rewrites the string goes through.", "quantifier": "every registry, module, type string and spec version", "why_tests_cant": "the lookup calls itself on a rewritten string; a rewrite that lengthens it would loop only for particular strings", "anchors": ["types/registry.go:GetCodecClass", "types/convert/convert.go:ConvertType"]}
{"id": "C49", "title": "The bundled permutation is Keccak-f[1600]", "statement": "On every state of 25 64-bit words the permutation used for hashing computes Keccak-f[1600] as FIPS 202 defines it bit by bit.", "quantifier": "every one of the 2^1600 states", "why_tests_cant": "test vectors touch a handful of states of an unrolled, re-ordered implementation", "anchors": ["pkg/go-ethereum/crypto/sha3/keccakf.go:keccakF1600", "pkg/go-ethereum/crypto/sha3/keccakf.go:rc"]}
{"id": "C50", "title": "Hash output can be read in pieces and from copies", "statement": "Read calls of any sizes return consecutive pieces of the one output stream, a Write after a Read is refused, and a Clone made at any point yields the same remaining output as the original.", "quantifier": "every message, every sequence of read sizes, every point of cloning", "why_tests_cant": "all sequences of calls", "anchors": ["pkg/go-ethereum/crypto/sha3/sha3.go:Read", "pkg/go-ethereum/crypto/sha3/sha3.go:clone", "pkg/go-ethereum/crypto/sha3/shake.go"]}
{"id": "C51", "title": "Storage maps have one key type per hasher", "statement": "For every storage map of decoded V14/V15 metadata with n hashers (one key, or a tuple key of n components), the decoded entry lists exactly n key types: the whole key type for one hasher, the components for several.", "quantifier": "every portable registry, every storage map entry, both metadata versions", "why_tests_cant": "the listed test metadata only checks entry counts; a wrong split shows up only for tuple keys under one hasher", "anchors": ["types/v14.go:MetadataV14Decoder.Process", "types/v15.go:MetadataV15Decoder.Process", "types/v14.go:TupleDisassemble"]}
{"id": "C52", "title": "Every part of an extrinsic comes back", "statement": "Decoding an extrinsic (bare or signed, version 4 or 5) returns its version, signer, signature, era, nonce, tip, signed extensions, call and parameters as they are on the wire, and its blake2b-256 hash over the length-prefixed bytes, whether or not the length prefix was given.", "quantifier": "every metadata, every call and argument types, every list of signed extensions and caller options, every length below 2^30", "why_tests_cant": "ranges over all calls, argument types, signed extensions and lengths; a wrong order or a byte misread shows up only for particular combinations", "anchors": ["extrinsic.go:ExtrinsicDecoder.Process", "extrinsic.go:generateHash"]}
{"id": "C53", "title": "Announced lengths above the limits are refused", "statement": "Decoding a vector whose length prefix announces more than 524288 elements, or a BTreeMap whose prefix announces more than 1000 entries, panics instead of allocating or returning a value, whatever bytes follow.", "quantifier": "all registries, element types, announced lengths above the limit, positions in the buffer and following bytes", "why_tests_cant": "The lengths run up to 2^63 and the element types are unbounded; a test tries one length and one type.", "anchors": ["types/Vectors.go:Vec.Process", "types/BTreeMap.go:BTreeMap.Process"]}
{"id": "C54", "title": "Identity data keeps its kind and its bytes", "statement": "Decoding identity data gives None for 00, Raw<n> with the n bytes (as text when they are valid UTF-8, else as hex) for a first byte n+1 up to 33, and the named hash for 34 to 37, consuming exactly these bytes; encoding that value gives the bytes back; any other first byte is an error.", "quantifier": "all raw lengths 0 to 32, all byte contents, the four hash kinds, all positions in a buffer", "why_tests_cant": "32-byte contents and the UTF-8 boundary cases cannot be enumerated.", "anchors": ["types/types.go:Data.Process", "types/types.go:Data.Encode"]}
{"id": "C55", "title": "Encoding a call writes its index and its arguments in metadata order", "statement": "Encoding a call value writes the two bytes of its index (given with or without 0x) followed by the encodings of the arguments in the order and at the types metadata declares, taking call_args when given and params otherwise; decoding the result gives the call back with every argument. Too few arguments, an unknown index or missing metadata panic.", "quantifier": "all metadata tables, calls, argument lists and argument values that have a SCALE encoding", "why_tests_cant": "Calls, argument types and nestings are unbounded.", "anchors": ["types/Call.go:Call.Encode", "types/Call.go:Call.Process", "types/base.go:EncodeWithOpt"]}
{"id": "C56", "title": "Each runtime version sees the types its own metadata declared", "statement": "After registering the type tables of any sequence of runtime versions (metadata V14 and later), a composite type name decodes blocks of a version with the declaration of that version's metadata; a version that was never registered uses the first declaration; spec version 0 never replaces anything; and a registration call registers every entry it was given.", "quantifier": "all sequences of metadata registrations, type names, declarations and spec versions", "why_tests_cant": "The history of registrations is unbounded and the registry is global state shared by all of them.", "anchors": ["types/customType.go:RegCustomTypes", "types/customType.go:regCustomKey", "types/base.go:EqTypeStringWithTypeStruct", "types/scaleInfo.go:expandComposite"]}
{"id": "C57", "title": "Checked 64-bit arithmetic reports overflow exactly", "statement": "SafeAdd, SafeSub and SafeMul return the result modulo 2^64, and the flag is set exactly when the true result does not fit.", "quantifier": "all pairs of 64-bit numbers", "why_tests_cant": "There are 2^128 pairs.", "anchors": ["utiles/crypto/ethereum/common/math/integer.go:SafeAdd", "utiles/crypto/ethereum/common/math/integer.go:SafeSub", "utiles/crypto/ethereum/common/math/integer.go:SafeMul"]}
{"id": "C58", "title": "256-bit numbers: two's complement, powers and bytes", "statement": "U256 reduces modulo 2^256, S256 reads two's complement and undoes U256, Exp is the power modulo 2^256 and leaves its arguments alone, PaddedBigBytes is big-endian and as short as the minimum length allows, BigMax and BigMin give the larger and the smaller, Byte and FirstBitSet address single bytes and bits.", "quantifier": "all integers, exponents and lengths", "why_tests_cant": "The integers are unbounded.", "anchors": ["utiles/crypto/ethereum/common/math/big.go:U256", "utiles/crypto/ethereum/common/math/big.go:S256", "utiles/crypto/ethereum/common/math/big.go:Exp", "utiles/crypto/ethereum/common/math/big.go:PaddedBigBytes", "utiles/crypto/ethereum/common/math/big.go:ReadBits", "utiles/crypto/ethereum/common/math/big.go:Byte", "utiles/crypto/ethereum/common/math/big.go:FirstBitSet", "utiles/crypto/ethereum/common/math/big.go:BigMax", "utiles/crypto/ethereum/common/math/big.go:BigMin"]}
{"id": "C59", "title": "Hex-or-decimal numbers survive their text form", "statement": "The text of a HexOrDecimal64, HexOrDecimal256 or Decimal256 reads back as the same number, and no text reads as a number out of range. Digits with leading zeros read as the number they write, UnmarshalText changes the number only when it succeeds, and the Must functions panic exactly on the texts refused.", "quantifier": "all numbers of the width and all texts", "why_tests_cant": "The numbers and texts are unbounded in practice.", "anchors": ["utiles/crypto/ethereum/common/math/big.go:ParseBig256", "utiles/crypto/ethereum/common/math/big.go:HexOrDecimal256", "utiles/crypto/ethereum/common/math/big.go:Decimal256", "utiles/crypto/ethereum/common/math/integer.go:ParseUint64", "utiles/crypto/ethereum/common/math/integer.go:HexOrDecimal64"]}
{"id": "C60", "title": "An alias means the type text it stands for", "statement": "Registering a name as an alias of Vec<T>, Option<T>, Compact<T>, BTreeSet<T>, BTreeMap<K,V> or [T; n] makes that name resolve to the decoder the text itself has, however deeply T is built.", "quantifier": "every registry, every alias name, every type text built from names, wrappers and arrays to any depth, every runtime version", "why_tests_cant": "The inner type texts are unbounded in depth and the registry may hold anything; a test fixes a handful of texts in one registry.", "anchors": ["types/customType.go RegCustomTypes", "types/registry.go getCodecInstant GetCodecClass", "types/convert/convert.go ConvertType"]}
{"id": "C61", "title": "Types declared by a portable registry decode as declared", "statement": "After the portable type registry of a runtime (metadata V14 and later) has been registered, every declared type has a recorded type name, and decoding the SCALE encoding of any value of that type under that name, at any offset of any buffer, yields the Go value shown for it and consumes exactly the encoding: structs as maps from field name to value, enums by variant name, tuples as col1, col2, ..., options, results, sequences, arrays, compact integers, bit sequences, hashes and account ids included, to any depth and in any order of declaration.", "quantifier": "every portable registry that meets the stated conditions on names and shapes, every registry state before, every declared type, every value of it to any depth, every position in a buffer, every runtime version and module", "why_tests_cant": "Registries hold hundreds of mutually dependent types in any order and the processing order decides which texts are recorded; a test decodes a few values of one chain's metadata.", "anchors": ["types/scaleInfo.go ProcessSiType dealOneSiType expandComposite expandEnum expandTuple expandArray expandSequence expandCompact expandOption expandResult", "types/customType.go RegCustomTypes", "types/registry.go GetCodecClass"]}
{"id": "C62", "title": "Different declared types are registered under different names", "statement": "Two different types of a portable registry that are named after their paths are never registered under the same name, even if their paths are equal: types of a repeated path are told apart by their ids, and no such name collides with another path. Structs and enums therefore keep their own declaration after registration.", "quantifier": "every portable registry, every pair of declared types, any number of types of the same path", "why_tests_cant": "Collisions depend on all paths of a registry at once; a test sees one registry.", "anchors": ["types/scaleInfo.go nameSiType ProcessSiType DuplicateName", "types/customType.go RegCustomTypes"]}
{"id": "C63", "title": "Decimal texts are read exactly", "statement": "For every text: StringToInt gives the value of an optionally signed sequence of decimal digits when it lies in the range of int64, and 0 for a number outside that range and for any other text.", "quantifier": "every text", "why_tests_cant": "Texts are unbounded and the boundary lies at 2^63; array lengths, enum indices and module ranges in type texts are all read through this function.", "anchors": ["utiles/tools.go:StringToInt"]}
{"id": "C64", "title": "The type registry inside runtime metadata is read as declared", "statement": "For every portable type registry (types with path, parameters, definition and documentation) in its wire encoding, at any position of a buffer and before any other bytes: reading it gives exactly the declared types by id, the later of two declarations of one id, and leaves the position behind it. MetadataDecoder.PortableRegistry on metadata of version 14 or 15 gives that registry; for versions below 14 it gives an error.", "quantifier": "every list of type declarations of any length and shape, every text in them, every surrounding data", "why_tests_cant": "Registries hold thousands of types of ten kinds with optional fields; a test uses the metadata of one chain.", "anchors": ["metadata.go:PortableRegistry", "types/scaleInfo.go:InitPortableRaw", "source/base.go SiType PortableType", "types/Struct.go", "types/Enum.go", "types/Vectors.go", "types/Option.go"]}
{"id": "C65", "title": "Runtime metadata of version 14 is read as declared", "statement": "For every runtime metadata of version 14 in its wire encoding: MetadataDecoder.Process gives version 14, the pallets in order with the declared names, prefixes, indices, calls, events, errors, constants and storage entries (with modifier, fallback and docs), each type replaced by the name under which it is registered, a lookup table that maps the index bytes of a call or event to exactly the declared pallet and variant and to nothing otherwise, and the signed extensions. This holds when the call, event and error ids are enums of the registry, constants have a registered name, a storage key has one hasher or a tuple key as many hashers as parts, pallet and variant indices are distinct, and no type is declared under a one-segment path equal to a name metadata itself is read with.", "quantifier": "every metadata V14: any number of types, pallets, calls, events, constants, storage entries, and every trailing data", "why_tests_cant": "The lookup must be exact for all 65536 index pairs of every runtime; a test checks a few calls of one runtime.", "anchors": ["metadata.go:Process", "types/v14.go", "types/scaleInfo.go", "types/metadata.go"]}
{"id": "C66", "title": "What is not metadata is refused", "statement": "MetadataDecoder.Process finds metadata exactly when the magic bytes stand at the start of the data or behind an Option<Compact<u32>>: with the magic bytes there the version byte selects the decoder of that version; data that does not contain the magic bytes anywhere gives the error 'not metadata' and leaves the registry alone; versions 0 to 8 always stop with 'Not found decoder class'.", "quantifier": "every byte sequence", "why_tests_cant": "All byte sequences are inputs of this entry point; refusals must not depend on their content.", "anchors": ["metadata.go:Process", "metadata.go:PortableRegistry", "types/registry.go:GetCodecClass"]}
{"id": "C67", "title": "From metadata bytes to calls and events", "statement": "After MetadataDecoder.Process has read the metadata of a runtime, every call of that runtime, encoded as the metadata declares it, is decoded to the declared pallet name, call name, argument names, argument types and values, and every block's list of events to the declared pallet, event, argument names and values, phases and topics, in order.", "quantifier": "every runtime metadata V14 or V15 that meets stated conditions on its type declarations, every call and every list of events of that runtime with every value of the argument types", "why_tests_cant": "This composes all layers: metadata reading, type registration, name resolution, value decoding; a test sees single blocks of single runtimes.", "anchors": ["metadata.go", "event.go", "types/Call.go", "types/v14.go", "types/scaleInfo.go"]}
{"id": "C68", "title": "Runtime metadata of version 15 is read as declared", "statement": "For every runtime metadata of version 15 in its wire encoding: MetadataDecoder.Process gives version 15, everything C65 gives for version 14, and also the runtime interfaces with their methods, named inputs and outputs by type name, the ids of the outer call, event and error enums, and the custom values by name with type id and value.", "quantifier": "every metadata V15: any number of types, pallets, interfaces, methods, up to 1000 custom values, and every trailing data", "why_tests_cant": "Seven consecutive parts are read while the registry they are read with changes; a test sees one chain whose declarations do not collide with the library's own names.", "anchors": ["metadata.go:Process", "types/v15.go", "types/scaleInfo.go", "types/BTreeMap.go"]}
{"id": "C69", "title": "Runtime metadata of versions 9 to 13 is read as declared, and its calls and events decode", "statement": "For every runtime metadata of version 9 to 13 in its wire encoding: MetadataDecoder.Process gives that version, the modules in order with their calls, events, storage entries (modifier, hashers, key and value types, fallback), constants and errors, the signed extensions, and lookup tables in which the call (event) with the bytes i, j is item j of the module with index i (versions 12, 13) or of the i-th module that has calls (events) (versions 9 to 11). Afterwards the bytes of every call and every list of events of that runtime decode to the names of module, item and arguments and to the argument values.", "quantifier": "every metadata of versions 9..13: any number of modules and items, every storage shape, every trailing data; every call and list of events whose arguments are encoded at the declared types", "why_tests_cant": "Five versions share decoders that number modules in two ways; a test sees single chains, where counted and indexed numbering often agree and hashers are seldom checked.", "anchors": ["metadata.go:Process", "types/metadata.go:MetadataV8Module", "types/metadata.go:MetadataV12Module", "types/v13.go:MetadataV13Decoder", "types/metadata.go:MetadataV9Decoder..MetadataV12Decoder", "types/registry.go"]}
{"id": "C70", "title": "The registry of a fresh process does not depend on map iteration order", "statement": "The 782 type definitions shipped with the library are put into the registry by two loops over Go maps, whose iteration order is random. For every pair of visiting orders loading succeeds and gives the same registry: the same decoder for every name. Every struct, enum and set is registered with exactly the fields, variants or flags of its definition, an alias of a registered name with the decoder of that name, and every other name keeps its built-in decoder. That registry meets all conditions which the metadata and portable-type theorems (C61, C64 to C69) put on the registry they start from.", "quantifier": "every order in which the inheritance pass of LoadTypeRegistry and the loop of RegCustomTypes may visit the shipped definitions (782! squared executions), every name", "why_tests_cant": "Go randomises map iteration per run; a test sees one of 782! x 782! executions. Custom definitions can depend on the order (C71), and the shipped ones contain chains of aliases and overrides of built-in names.", "anchors": ["source/source.go:LoadTypeRegistry", "source/base.go:BaseType", "types/registry.go:regBaseType", "types/customType.go:RegCustomTypes"]}
{"id": "C71", "title": "Custom definitions give the same registry in every map order", "statement": "RegCustomTypes(LoadTypeRegistry(text)) leaves the registry in the same state in whatever order Go visits the definitions.", "quantifier": "every list of custom definitions, every registry before, every pair of visiting orders", "why_tests_cant": "Both loops range over Go maps; a definition file that works in a test run may be registered differently in the next run.", "anchors": ["source/source.go:LoadTypeRegistry", "types/customType.go:RegCustomTypes"]}
{"id": "C72", "title": "Every shipped type can be decoded without meeting an unknown type name", "statement": "Decoding a type of the shipped definitions, alone or inside Vec, Option or Compact, never panics with \"Not found decoder class\", whatever the bytes: every name its fields and variants ask for is registered.", "quantifier": "every shipped definition and built-in type, every byte string, offset and spec version, every pallet name, every call table over shipped types, every order of loading the definitions", "why_tests_cant": "There are 782 definitions asking for about 3700 names; a misspelt name in a rarely taken enum variant is only met by an input that selects that variant.", "anchors": ["types/base.go:ProcessAndUpdateData", "types/registry.go:GetCodecClass", "source/BaseType.go:BaseType", "types/override/override.go:ModuleType"]}
{"id": "C73", "title": "Decoded metadata is consistent with itself, whatever the bytes were", "statement": "Whenever decoding metadata of versions 9 to 15 returns without an error, even for bytes no runtime produced, the lookup tables agree with the list of modules: under every key they hold the last call (event) that has this key, numbered by the module's index (counted up to version 11) and by position (own index from version 14); what a lookup finds is an item of one listed module under that module's name; every listed call and event can be looked up; from version 14 every constant has a non-empty type and the extension identifiers are those of the extension list; parts a version does not have are empty.", "quantifier": "every byte string that decoding accepts, every version, every fuel, every registry that contains the library's metadata types", "why_tests_cant": "Tests decode the metadata of a few runtimes, all well-formed; damaged or hostile metadata that still decodes can take any shape, e.g. two modules with one index.", "anchors": ["metadata.go:Process", "types/metadata.go:MetadataV12Decoder.Process", "types/v13.go:MetadataV13Decoder.Process", "types/v14.go:MetadataV14Decoder.Process", "types/v15.go:MetadataV15Decoder.Process"]}
{"id": "C74", "title": "Contracts registered side by side keep their types", "statement": "After any number of ink! contracts have been registered, each with an initialised decoder, every covered type of every one of them, under the name GetTypeNames gives for its id, decodes each encoding of each value to the declared value and reads exactly those bytes; the same holds for the types of a runtime registered before. Names of different contracts must differ (letter case aside), which prefixes without ':' that differ guarantee, and tuples with one text must have the same components. An id stands for the last type of the contract that has it. A decoder used for a second contract without Init panics. An id without a name has the empty name; counts left in the decoder by a registration given up half way change the names.", "quantifier": "every sequence of contracts, every type, value, encoding and surrounding bytes", "why_tests_cant": "A test registers one contract; which types a later contract replaces depends on all names and tuples of both.", "anchors": ["contract/ABI.go:Register", "contract/ABI.go:ToScalePortableType", "contract/ABI.go:GetTypeNames", "types/scaleInfo.go:ProcessSiType", "types/customType.go:RegCustomTypes"]}
{"id": "C75", "title": "Numbers from JSON are encoded as their value", "statement": "A number given as float64, the Go type of a JSON number, is encoded as its integer part: by u8 to u64 whenever it is in range, by Compact below 2^53, by Compact<u32> below 2^30, by i128 and i256 like the same *big.Int. Signed integers up to i64, and u128 and u256, should accept it too.", "quantifier": "every float64 bit pattern, every type of these kinds, every registry", "why_tests_cant": "A test converts a few round numbers; binary fractions, subnormals and the decimal rounding inside NewFromFloat take 2^64 patterns.", "anchors": ["types/Uint.go:U8.Encode", "types/Uint.go:U16.Encode", "types/Uint.go:U32.Encode", "types/Uint.go:U64.Encode", "types/Compact.go:Compact.Encode", "types/Compact.go:CompactU32.Encode", "types/Int.go:IntFixed.Encode", "utiles/tools.go:DecimalFromInterface"]}
{"id": "C76", "title": "Well-formed type registries are accepted", "statement": "Registering the types of a portable registry, from runtime metadata V14 or V15 or from the ABI of a contract, ends without a panic and gives every type a name that is not empty, provided enums have paths, options and results their parameters, the names of primitive types are known, and no circle of types goes through nameless types only. Metadata of such a registry, with pallets that refer to its types, is decoded as it was written.", "quantifier": "every portable registry of any size and shape, every registry of names before it, every metadata built on it, every amount of trailing bytes", "why_tests_cant": "The names are computed by mutual recursion over a graph of types in five passes; a test registers one runtime, and whether another one panics or runs for ever depends on its whole graph.", "anchors": ["types/scaleInfo.go:ProcessSiType", "types/scaleInfo.go:dealOneSiType", "types/scaleInfo.go:expandComposite", "types/scaleInfo.go:expandEnum", "types/scaleInfo.go:RegPrimitive", "types/customType.go:RegCustomTypes", "types/v14.go:Process", "types/v15.go:Process", "ABI.go:Register"]}
{"id": "C77", "title": "The hash is the same on amd64", "statement": "On amd64 the permutation is written in assembly. For every state, every content of the registers and of the frame, and every place of the two in memory that keeps them apart, it leaves in the state the 25 words the portable code computes, which are those of Keccak-f[1600], and it changes no other memory than the state and its frame of 200 bytes, nor the stack pointer.", "quantifier": "every state of 25 words, every initial content of registers, frame and memory, every address of the state and of the frame", "why_tests_cant": "The portable code and the assembly are never compiled into the same program, so no test compares them; six lanes are kept complemented and the parities are computed one round ahead, so that an error may show for few states only.", "anchors": ["pkg/go-ethereum/crypto/sha3/keccakf_amd64.s:keccakF1600", "pkg/go-ethereum/crypto/sha3/keccakf_amd64.s:mKeccakRound", "pkg/go-ethereum/crypto/sha3/keccakf_amd64.go:keccakF1600", "pkg/go-ethereum/crypto/sha3/keccakf.go:keccakF1600"]}
{"id": "C78", "title": "Nested calls are listed", "statement": "When decoding ends, the decoder has listed the calls met on the way: one text for each call in the value, inner calls before the call that contains them, in the order in which they lie in the input. Each text is the hexadecimal form of the bytes that call was read from, so that decoding it alone as \"Call\" gives that call again. Only calls read as keys of a map are listed without being in the value, where just their text remains.", "quantifier": "every type, value and input the decoder accepts, calls nested to any depth", "why_tests_cant": "A batch may hold calls nested to any depth and in any container; a test follows one batch.", "anchors": ["types/call.go:Call.Process", "types/base.go:ProcessAndUpdateData", "types/base.go:ScaleDecoder"]}
{"id": "C79", "title": "An ExtrinsicDecoder may be used again, with three traces of its past", "statement": "One ExtrinsicDecoder that is initialised and run any number of times, with panics recovered from in between, returns for each extrinsic what a new decoder would return, with these exceptions: without a spec version or a module in the options those of the last run stay in force (the module is the pallet of the last call), an account or signature that is neither a text nor a map with an entry shows the last one, and the list of nested calls is appended to that of the earlier runs. If every run is given its spec version, no pallet has overriding types, and signers and signatures are texts or maps with an entry, there is no difference in what is returned.", "quantifier": "every history of the decoder (any sequence of options and inputs, ended or panicked), every registry, every options and every input", "why_tests_cant": "What is left over depends on the history; a test uses a new decoder or one history.", "anchors": ["extrinsic.go:ExtrinsicDecoder.Init", "extrinsic.go:ExtrinsicDecoder.Process", "types/base.go:ScaleDecoder.Init", "types/base.go:ProcessAndUpdateData", "types/override/override.go:ModuleType"]}
{"id": "C80", "title": "Loading the definition file of a network gives the same types in every order", "statement": "A process that loads one of the files network/*.json (types.RegCustomTypes(source.LoadTypeRegistry(file))) decodes and encodes every type from then on in the same way, whatever the order in which Go visits the entries of the maps, at start and while loading; structs, enums and sets are what the file describes, for all spec versions or for those of a name \"Name#lo-hi\"; an alias of a registered name is that name; names the file does not define keep their meaning.", "quantifier": "each of the 54 files, every pair of visiting orders of the start registry and of the file (all permutations), every type text, input, offset, context, spec version and value", "why_tests_cant": "The order of Go's map iteration is random; there are n! orders and a test sees one of them per run.", "anchors": ["network/*.json", "source/source.go:LoadTypeRegistry", "types/customType.go:RegCustomTypes", "types/customType.go:regCustomKey", "types/registry.go:specialVersionCodec"]}
{"id": "C81", "title": "A decoded call can be encoded again", "statement": "What decoding a call returns - a map with call_index, call_name, call_module and params, with such maps inside for nested calls - can be given to Encode, directly or after a round trip through JSON, and encodes to the bytes it was decoded from.", "quantifier": "all metadata, calls, argument types (nested to any depth, calls within calls) and bytes of a call; the pallets' overriding types, numbers from 2^53, signed and 256-bit integers, names that are not UTF-8 and calls nested deeper than encoding/json allows are the exceptions", "why_tests_cant": "Call nesting, argument types and values are unbounded; a test sees a few calls.", "anchors": ["types/Call.go:Call.Encode", "types/Call.go:Call.Process", "types/metadata.go:ExtrinsicParam", "types/base.go:EncodeWithOpt"]}
{"id": "C82", "title": "Reading metadata again gives the same metadata and keeps the types", "statement": "Decoding metadata that was decoded before in this process, at once or after any other registrations, returns the same modules, calls, events, extensions, constants and storage as the first time, and leaves every registered type as it is - except the names that each reading binds anew: ExtrinsicSignature, ExtrinsicSigner, the names of types called RuntimeCall, and OriginCaller.", "quantifier": "all well-formed metadata of versions 9 to 15, all registries it is first read in, and all later registries that still have what was registered and the names metadata is read with", "why_tests_cant": "The registry is global and its state when metadata is read again is the result of everything the process did before; type graphs are unbounded.", "anchors": ["types/scaleInfo.go:ProcessSiType", "types/customType.go:RegCustomTypes", "metadata.go:MetadataDecoder.Process", "types/v14.go:MetadataV14Decoder.Process", "types/v15.go:MetadataV15Decoder.Process"]}
{"id": "C83", "title": "An EventsDecoder may be used again, with one trace of its past", "statement": "An EventsDecoder that has been used before - for other blocks, other runtimes, or for input on which it panicked - returns on the next Init and Process what a new decoder returns, provided the option names a spec version; an option with spec version 0 is read with the last spec version given before.", "quantifier": "all histories of Init and Process (options, metadata, bytes; runs that return and runs that panic) and all next runs", "why_tests_cant": "Histories are unbounded, and what a decoder keeps shows only when the runtimes differ.", "anchors": ["event.go:EventsDecoder.Init", "event.go:EventsDecoder.Process", "types/base.go:ScaleDecoder.Init"]}
{"id": "C84", "title": "Every type of a network's definition file can be decoded without meeting an unknown type name", "statement": "After one of the files network/*.json has been loaded, decoding a type it defines, alone or inside Vec or Option, never panics with \"Not found decoder class\", whatever the bytes, the spec version and the order in which the file was read: every name its fields and variants ask for is registered.", "quantifier": "all files, their types, byte strings, positions, spec versions and orders of visiting the entries", "why_tests_cant": "The names a type reaches depend on the bytes and, through versioned entries, on the spec version; both are unbounded.", "anchors": ["source/source.go:LoadTypeRegistry", "types/customType.go:RegCustomTypes", "types/registry.go:GetCodecClass", "network/kusama.json", "network/karura.json"]}
{"id": "C85", "title": "Runtime metadata may be read by several goroutines at once", "statement": "When several goroutines read metadata of V14 or later, each registering the types it declares, the outcome does not depend on the schedule: once all are done, every name declared for the first time stands for what was declared, names known before keep their type, and the registry is the one that reading one after the other leaves. Every goroutine comes to its end.", "quantifier": "all numbers of goroutines, declarations, registries and schedules of the lock operations", "why_tests_cant": "The number of interleavings is unbounded and a test runs one of them; the race detector is silent since every access holds a lock.", "anchors": ["types/customType.go:RegCustomTypes", "types/customType.go:regCustomKey", "types/scaleInfo.go:expandComposite", "types/registry.go:V14Types"]}
{"id": "C86", "title": "Registering other types meanwhile does not disturb a decode", "statement": "While one goroutine decodes, others may register types: as long as none of the names they register is one the decode asks for, its outcome (value, position or panic) is the one it has without them, whatever is registered and at which moment. When a type in use is registered again meanwhile this is not so: one Vec can come out with elements of both layouts.", "quantifier": "all types, byte strings, registries and histories of the registry between any two of the decoder's reads", "why_tests_cant": "The other goroutines may act between any two of the reads, whose number depends on the bytes.", "anchors": ["types/registry.go:getCodecInstant", "types/registry.go:GetCodecClass", "types/registry.go:specialVersionCodec", "types/base.go:ProcessAndUpdateData"]}
{"id": "C87", "title": "Values of types declared by a runtime are encoded as declared", "statement": "Once a portable type registry is processed, Encode writes every value of a declared type exactly as the declaration says (the same bytes Decode reads for it), whatever structs, enums, options, results, tuples, lists and compact numbers it nests; and once the metadata of a runtime is processed, a call given by its index and the values of its arguments is written as the runtime reads it.", "quantifier": "all portable registries of the form of C61 and all V14 runtimes of the form of C67; all values of any depth and size; all calls", "why_tests_cant": "Types, nesting and values are unbounded, and the Go form of a value passes through type names invented during registration.", "anchors": ["types/scaleInfo.go:ProcessSiType", "types/base.go:EncodeWithOpt", "types/Enum.go:Encode", "types/Struct.go:Encode", "types/Call.go:Encode", "types/metadata.go:Process"]}
{"id": "C88", "title": "A container applied to an argument means just that", "statement": "A type text W<X>, where W is a built-in container in any letter case (Vec, BTreeSet, Option, Compact, BTreeMap, Box, Result, WrapperOpaque, Range, RangeInclusive), is read as that container with elements of type X, for every argument text X, unless the whole text was registered as a name of its own. BoundedVec<X, N> and WeakBoundedVec<X, N> are read as Vec<X>, and Box<X> as X, for all bytes.", "quantifier": "all argument texts of any length and nesting, all registries that keep the container, all byte strings", "why_tests_cant": "Type texts are unbounded and are cut apart by searching for characters; tests see a few texts.", "anchors": ["types/registry.go:GetCodecClass", "types/base.go:Init", "types/Vectors.go:Init", "types/types.go:Box"]}
{"id": "C89", "title": "Registering other types meanwhile does not disturb an encode", "statement": "While one goroutine encodes a value, others may register types: as long as none of the names they register is one the encoding asks for, its result (text or panic) is the one it has without them, whatever is registered and at which moment. When a type in use is registered again meanwhile this is not so: the bytes of one Vec can have elements of both layouts, which neither registry writes.", "quantifier": "all types, values, call metadata, registries and histories of the registry between any two of the encoder's reads", "why_tests_cant": "The other goroutines may act between any two of the reads, whose number depends on the value.", "anchors": ["types/base.go:Encode", "types/registry.go:getCodecInstant", "types/registry.go:GetCodecClass", "types/Vectors.go:Encode", "types/Enum.go:Encode", "types/Call.go:Encode"]}
{"id": "C90", "title": "The keys shown by a decoded BTreeMap tell its entries apart", "statement": "A decoded BTreeMap shows each key as text (JSON when the key is not a string). Two keys of one type that show the same text are the same key with the same bytes, so the texts determine the key bytes, whatever the key type and however deeply it is nested. Three exceptions: keys of type i8, all shown as 0; an Option of a text as key, where nothing and the text \"null\" are both shown as null; and texts that themselves look like 0x hexadecimal, which are shown as the bytes they name would be.", "quantifier": "all key types that resolve, all keys that are signed integers or whose numbers are natural, and whose texts are UTF-8 and do not look like hexadecimal, all maps of up to 1000 entries", "why_tests_cant": "Two different keys with one text lose an entry silently; that no two keys of any type collide needs the text to be injective on all nested values.", "anchors": ["types/BTreeMap.go:Process", "utiles/tools.go:ToString"]}
{"id": "C91", "title": "The map of a decoded extrinsic says what the extrinsic says", "statement": "GenericExtrinsic.ToMap gives a map with one entry per field, under the documented names: texts as they are, numbers below 2^53 as the float64 of the same value, amounts as decimal text, nested values and nested calls entry by entry, however deep (up to 10000 levels). Two exceptions: numbers from 2^53 are rounded, so that two different extrinsics can have one map; and a float argument that is no number makes the map nil.", "quantifier": "all extrinsics with UTF-8 texts, all argument values built from numbers below 2^53, amounts, texts, booleans, lists, maps and calls", "why_tests_cant": "The value trees are unbounded and pass through a text format that knows no integers.", "anchors": ["extrinsic.go:ToMap", "extrinsic.go:GenericExtrinsic", "extrinsic.go:ExtrinsicParam"]}
{"id": "C92", "title": "The hash functions give the standard's digests, and Reset forgets", "statement": "Sum224, Sum256, Sum384 and Sum512 return the SHA3 digest of FIPS 202 and ShakeSum128 and ShakeSum256 fill their buffer with that many bytes of the SHAKE output, for every message and every buffer length. The hashes made by New224 to New512, NewKeccak256 and NewKeccak512, fed in any pieces, give on every Sum the SHA3 digest, or the Keccak digest with the original padding, of what was written. A hash that has been written to and read from behaves after Reset like a new one, whatever follows.", "quantifier": "all messages, all buffer lengths, all histories of writes and reads before the Reset and of operations after it", "why_tests_cant": "Messages, outputs and histories have no bound; a state left behind by a read shows only for some lengths.", "anchors": ["pkg/go-ethereum/crypto/sha3/hashes.go:Sum224", "pkg/go-ethereum/crypto/sha3/hashes.go:Sum256", "pkg/go-ethereum/crypto/sha3/hashes.go:Sum384", "pkg/go-ethereum/crypto/sha3/hashes.go:Sum512", "pkg/go-ethereum/crypto/sha3/shake.go:ShakeSum128", "pkg/go-ethereum/crypto/sha3/shake.go:ShakeSum256", "pkg/go-ethereum/crypto/sha3/sha3.go:Reset"]}
{"id": "C93", "title": "What Compare does not report as changed takes the same bytes", "statement": "If Compare finds a call or an event in both metadata and does not report it as changed, then it has the same number of arguments in both and each argument has the same encoding: every byte string that encodes a value of the new argument type is read, to its end, at the old one too, and the other way round. Argument types of different structure are reported.", "quantifier": "all registries, all metadata with distinct names, all argument types and all byte strings", "why_tests_cant": "Type graphs, metadata and values are unbounded; the comparison goes by a text that leaves things out.", "anchors": ["types/compare.go:Compare", "types/base.go:Eq", "types/base.go:getTypeStructString", "types/Struct.go:TypeStructString", "types/Enum.go:TypeStructString"]}
{"id": "C94", "title": "Encoding does not depend on the order of map entries", "statement": "Go maps have no order. Every map that holds the fields of a value, at any depth, may list them in any order: Encode writes the same text, and decoding it gives the value back. A call given as a map is encoded the same way, or fails the same way, in every order. The exceptions are maps with more than one name where an enum or identity Data is expected: what is written is decided by the name that iteration meets first.", "quantifier": "all types and values of the SCALE relation, all permutations of the entries of all maps in the value, all maps for calls", "why_tests_cant": "Go randomises map iteration, so a test sees one order per run, and the number of orders grows with the value.", "anchors": ["types/Struct.go:Encode", "types/Enum.go:Encode", "types/types.go:Encode", "types/Call.go:Encode", "utiles/tools.go:GetEnumValue"]}
{"id": "C95", "title": "A struct is encoded from its declared fields, all of them", "statement": "Encode of a struct given as a map depends on the entries for the declared fields only: other keys change nothing, and the same holds for the fields of an enum's struct variant. A map that lacks a declared field is refused rather than encoded as something else.", "quantifier": "all struct types and struct variants, all maps, with any extra or missing keys, all decoders of the missing field", "why_tests_cant": "Any set of keys can be extra or missing, and the result depends on the type of each missing field; a test tries a few.", "anchors": ["types/Struct.go:Encode", "types/Enum.go:Encode", "types/base.go:EncodeWithOpt"]}
{"id": "C96", "title": "What is written for a type of fixed size has that size", "statement": "Whatever value is given, valid or not: when Encode of a type of fixed size (integers, bool, hashes, byte arrays, and the structs, tuples and arrays made of them) returns a text, the text is exactly that many bytes.", "quantifier": "all types of fixed size, all values of every Go type", "why_tests_cant": "The values are all of interface{}; a short or long text shifts every later field of the message, which no test of one value shows.", "anchors": ["types/types.go:Encode", "types/Uint.go", "types/Int.go", "types/FixedU8.go", "types/FixedArray.go", "types/Struct.go"]}
{"id": "C97", "title": "A type of fixed size reads that many bytes, and elements stand at multiples of it", "statement": "For types of fixed size (integers, bool, hashes, account ids, byte arrays, sets, enums with explicit numbers, boxes, ranges, and the structs, tuples and non-empty arrays made of them) every string of that many bytes is accepted at every position, and the cursor moves by exactly that size. So the i-th element of an array, or of a vector after its length, is the value decoded on its own at i times the element's size. Floats and empty arrays are exceptions: a float does not move the cursor, an empty array takes one byte.", "quantifier": "all types of fixed size, all byte strings, all positions, all element counts and indices", "why_tests_cant": "Users compute offsets into storage values from sizes; a decoder that took a byte more or less for some content would shift all later fields, and the contents are all byte strings.", "anchors": ["types/Uint.go", "types/Int.go", "types/types.go", "types/FixedU8.go", "types/FixedArray.go:Process", "types/Vectors.go:Process", "types/Struct.go:Process", "types/Set.go:Process", "types/Float.go"]}
{"id": "C98", "title": "Decoding any bytes and encoding the value gives the bytes back", "statement": "Whatever bytes Decode accepts for a type, Encode of the value it returns writes exactly the bytes that were consumed. So two different byte strings never decode to the same value.", "quantifier": "all types, all buffers and positions, all bytes that follow", "why_tests_cant": "The inputs are all byte strings, not only the ones Encode produces; a test takes its inputs from an encoder.", "anchors": ["types/base.go:ProcessAndUpdateData", "types/base.go:EncodeWithOpt", "types/Uint.go", "types/types.go", "types/Struct.go", "types/Enum.go", "types/FixedArray.go", "types/Results.go", "types/Option.go", "types/Bool.go"]}
{"id": "C99", "title": "The merged type source holds each name's last definition", "statement": "The program that writes source/base.go merges exactly the files whose name ends in .json. Each type name has the definition of the last visited file that has the name, whatever the order in which the entries of a file are visited, and no other names appear. BaseType of the written program is the JSON text of the merged map.", "quantifier": "all lists of files, all entries, all orders of visiting the entries, all names", "why_tests_cant": "Which definition wins depends on every file visited before and after, and Go's map order differs from run to run.", "anchors": ["tools/merge.go:main", "tools/merge.go:FilePathWalkDir"]}
{"id": "C100", "title": "BytesToBnHex identifies the bytes", "statement": "BytesToBnHex writes the decimal numbers of the bytes one after the other and nothing else, and the bytes can be read back from the text.", "quantifier": "all byte strings", "why_tests_cant": "Whether two inputs share a text is a question about all pairs of inputs.", "anchors": ["utiles/tools.go:BytesToBnHex"]}
{"id": "C101", "title": "IsNil tells nil from other values", "statement": "IsNil is true exactly for the nil interface and for the nil of its type, and never panics; so an option is encoded as 00 exactly for nil.", "quantifier": "all values of all Go types", "why_tests_cant": "The argument is of any type; a test passes the types the library itself uses.", "anchors": ["utiles/tools.go:IsNil", "types/Option.go:Encode"]}
{"id": "C102", "title": "Bytes missing at the end of the buffer count as zeros", "statement": "Decoding a buffer that ends too early gives the same value, or the same panic, as decoding it with any number of zero bytes appended; only the position reached differs.", "quantifier": "all types, all buffers, all positions, all numbers of appended zeros", "why_tests_cant": "The point of truncation is any byte of any value of any type.", "anchors": ["types/scaleBytes/scaleBytes.go:GetNextBytes", "types/Uint.go:Process", "types/Compact.go:Process", "types/Struct.go:Process", "types/Vectors.go:Process", "types/FixedArray.go:Process", "types/Enum.go:Process", "types/Bool.go:Process"]}
