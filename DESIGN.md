# Formal model of itering/scale.go in Rocq

## Layout

The Go code is modelled function by function as total, computable Gallina
functions. The files in `rocq/theories` come in five kinds.

* `GoBase.v`: Go run-time notions (bytes, machine integers, panics) and the
  standard-library string functions the code calls.
* `Model*.v`: the model. Every definition cites the Go file and lines.
* `Spec*.v`: specifications that do not mention the model's helpers:
  little-endian numbers and decimal numerals (`SpecNum`), Uint128 as a number
  (`SpecUint128`), the SCALE encoding as a relation (`SpecScale`), Keccak-f at
  bit level (`SpecKeccak`), the sponge construction (`SpecSponge`). Smaller
  specifications stand at the head of the `Prop` file that uses them.
* `Proofs*.v`: lemmas.
* `Prop*.v`: the property theorems `Cnn_...`, each with `Print Assumptions`
  and a concrete non-trivial case (an `Example` or `..._case`).

Naming: `..._partial` proves part of a claim that is false or not fully proved;
`..._refuted` proves the negation of a claim by a witness; `..._exact` and
`..._iff` characterise what the code does instead.

## Representation

* A Go `string` is a Coq `string`, a Go `[]byte` is a `list ascii`. Both are byte
  sequences, so that no well-formedness side condition is needed.
* Go `int` and `uint64` arithmetic that can wrap is written with an explicit wrap.
  Other integers are `Z`.
* A panic is the `Panic` constructor of the result type `res`. Go recursion
  without a structural bound is recursion on fuel with an explicit `OutOfFuel`.
  The API level definitions (`Decodes`, `EncodesTo`, `Compares`, ...) say "with some
  fuel, and not OutOfFuel", so fuel does not show in the theorems.
* `interface{}` is the inductive type `val`: one constructor per dynamic type the
  code tells apart. `nil` interface, nil slice and empty slice are different values.
* Reflection (`reflect.New` of a registered struct) is the inductive type `codec`:
  one constructor per decoder, holding the fields that struct carries.
* A Go map is an association list. Where Go ranges over a map the list order is
  the iteration order of that run; theorems quantify over it.
* The registry, the special-version table and the override table are components
  of the record `env`, which theorems quantify over. `base_env` is the registry
  that `regBaseType` builds.

## What each property rests on

| Id | Modelled code | How it is proved |
|----|---------------|------------------|
| C01 | `ScaleBytes.GetNextBytes` and `Reset` | induction over the list of reads |
| C02 | `HexToBytes`, `BytesToHex`, `AddHex`, `TrimHex` | induction on bytes, sweep over nibbles |
| C03 | the swap loop of `ReverseBytes` | loop invariant; even lengths proved, odd ones characterised and refuted |
| C04 | `U8` to `U256`, both directions | arithmetic on little-endian lists |
| C05, C06 | `IntFixed`, `BigIntToIntBytes` | exact result for every byte string; two's complement refuted for i8, minima, i128/i256 |
| C07-C10 | all of `utiles/uint128` | arithmetic against `Z`; Knuth-style bound for the trial quotient |
| C11-C14 | `Compact`, `CompactU32`, both directions | case analysis over the four modes; exact characterisations |
| C15-C17 | every decoder's `Process` and `Encode`, `getCodecInstant`, `ProcessAndUpdateData`, `EncodeWithOpt` | induction over the `scale` relation of `SpecScale.v` |
| C18, C19 | `Option`, both directions | direct; exact |
| C20, C21 | the whole decoder | induction on fuel over all codecs, with a logical relation between runs |
| C22 | the whole decoder | refuted; partial by induction |
| C23 | the whole decoder | measure: bytes left, then length of first-component chains; refuted for self-optional types |
| C24-C28 | `Bytes`, `HexBytes`, `String`, `BitVec`, `Set`, `Enum`, `FixedArray` | exact results, witnesses |
| C29 | `buildStruct` and its regular expressions | against a bracket-depth splitter |
| C30, C31 | `RegCustomTypes`, `regCustomKey`, `getCodecInstant`, `specialVersionCodec` | induction over registration histories |
| C32 | `regCustomKey` cut at its lock operations, slices with backing arrays | simulation over all schedules; lost updates refuted |
| C33 | `override.go` and its use in `ProcessAndUpdateData` | direct; witnesses |
| C34, C35 | `expandEnum`, `registerOriginCaller` composed with `Enum.Process` | induction over the sorted variants |
| C36 | the index construction of V6 to V15, `Call.Process` | induction over modules and variants |
| C37, C38, C52 | `ExtrinsicDecoder.Process`, `GenericExtrinsic.Encode` | composition of C15-C17 |
| C39 | `EventsDecoder.Process`, `EventRecord.Process` | induction over the records |
| C40 | `Compare`, `Eq` | induction over modules; whole result characterised |
| C41 | `TypeStructString` of every decoder, `getTypeStructString` | measure; witnesses that never return |
| C42 | `parserFixPoint`, `SubstrateFixedU64`, `SubstrateFixedI128` | arithmetic over scaled integers (PropFixPoint.v); C42_named: the three exported functions (PropFixNamed.v) |
| C43 | `ethereum.Encode` | induction over the characters, for any hash and for Keccak-256 |
| C44, C49, C50 | the sponge, the portable permutation | invariant "state = absorb of the bytes so far"; bit-level equality per round |
| C45, C47 | `EncodeWithOpt`, the `Encode` methods | induction on fuel; witnesses |
| C46 | `UniqueSlice` | induction |
| C48 | `getCodecInstant` | measure on the length of the type string |
| C51 | storage of V14 and V15 | case analysis |
| C53 | `Vec.Process`, `BTreeMap.Process` | direct, for every element type |
| C54 | `Data`, both directions | against an RFC 3629 specification of UTF-8 |
| C55 | `Call.Encode`; for a call given as a map the JSON round trip (ModelBox.v) | composition of C16; what JSON makes of each value |
| C56 | the V14 path of `RegCustomTypes` | induction over upgrade histories |
| C57-C59 | `ethereum/common/math` | arithmetic against `Z` |
| C60 | `RegCustomTypes` (alias of a type text), `GetCodecClass` | induction over type texts: which texts `ConvertType` leaves alone and how each is resolved |
| C61 | `ProcessSiType`, `dealOneSiType` and the expand functions, `RegCustomTypes`, decoding | specification of portable types apart from the model (`SpecPortable.v`: wire format, shown value, covered declarations); invariant of the registration passes (`ProofsPortReg.v`), texts and the decoders they resolve to (`ProofsPortText.v`), mutual induction over encodings (`ProofsPortDecode.v`) on top of C15; refutations for the shapes left out |
| C62 | `nameSiType`, the count of paths in `ProcessSiType` | counting lemma over the ids, then case analysis on the separator; refuted for paths that differ in case and ids with gaps |
| C63 | `StringToInt` | both directions between the parser and a separate inductive description of signed decimal numerals |
| C64 | the definitions of `source.BaseType` by which metadata is read, `InitPortableRaw`, `PortableRegistry` | wire format described in SpecMeta.v; each record is shown to be a SCALE value of its registered type, then the decoding theorem C15 |
| C65 | whole `MetadataV14Decoder`, `MetadataDecoder.Process` | the registry survives portable registration at the names metadata is read with (frame lemma, ProofsFrame.v); tables by C41/C50 lemmas |
| C66 | `MetadataDecoder.Process` | total case analysis of the header; refusals for all data |
| C67 | the composition | C65 or C68, then C61 for the argument values (its invariant survives the registration of `OriginCaller`), then C38/C39 |
| C68 | `MetadataV15Decoder.Process` and the records it reads | each part read as C15 says, with the registry left by the parts before it (frame of the registration); refuted for a runtime that declares a type of path `BTreeMap` |
| C69 | `MetadataV9Decoder` to `MetadataV13Decoder`, the module records V8, V12, V13 | wire format in SpecMetaOld.v with each version's own hasher numbers; modules and extensions read as C15 says (ProofsMetaOld.v), tables by C36; calls by the call lemma of C67, events by C39; refuted for hashers of V9 and extensions of V11 |
| C70 | `LoadTypeRegistry`, all 782 definitions of `source.BaseType`, `regBaseType` | invariant over both loops: a key already visited has its last value, another one its first; a boolean function checks for every entry that each possible value and each possible lookup leads to the same decoder, and is evaluated on the 782 entries (ProofsLoad.v, PropLoad.v) |
| C71 | `LoadTypeRegistry`, `RegCustomTypes` | the same invariant for every file without aliases of aliases; refuted in general by two files |
| C72 | `ProcessAndUpdateData`, `GetCodecClass`, the shipped definitions | which names each decoder looks up (`asks`), shown sound for every decoder program; the closure of all shipped names computed and checked; an input for each of the 29 exceptions |
| C73 | metadata decoding of versions 9 to 15 as in C64 to C69 | the tables of every accepted input are shown equal to the keyed items of the module list, in reverse; no hypothesis on the bytes but their length. The example is metadata with two modules of one index |
| C74 | `contract/ABI.go` on top of the model of `ProcessSiType` (ModelContract.v) | the invariant of C61 for one contract is kept by every registration of another one: names and tuples are shown to be apart, version ranges untouched; induction over the history (PropContract.v). C74_declared: an id stands for the last type that has it; C74_unnamed: any other id has the empty name; C74_counts_refuted: counts left in the decoder change the names. Example: a runtime and two contracts that share paths and a tuple |
| C75 | float64 as bit pattern, its conversions to integers on amd64 and `decimal.NewFromFloat` (ModelFloat.v), and every `Encode` that takes a float64 | IEEE 754 stated separately (`float_is`, `integer_part`); the shortest decimal within half a unit in the last place has the same integer part as long as the exponent is not positive, by induction over the digits tried (PropFloat.v). Examples: 1.5, -7.25, 123456789 |
| C76 | ProcessSiType and everything below it as for C63 (ModelScaleInfo.v), Register of contracts (ModelContract.v), metadata V14 and V15 (ModelMetadata.v) | `registrable` says of the declared types alone what must be there, with a rank that falls along nameless types and along structs that stand for another type; success by induction over the fuel, with an invariant on the names given so far (ProofsSiTotal.v); 2 * bound + 3 steps are enough. With C65 and C68 the hypothesis that the registration succeeds disappears from the metadata theorems (PropSiTotal.v). Examples: the runtime of C67 and the contracts of C74 |
| C77 | keccakf_amd64.s instruction by instruction, as a program for a machine with 16 registers and a memory of 64-bit words (ModelKeccakAsm.v, transcribed by a script) | the machine follows one with two lists of 25 words (simulation for any program that names only the state, the frame and registers other than DI and SP); one round run symbolically is the round of C49 on the state with six lanes complemented, with the parities of the columns as invariant; 24 rounds by induction (ProofsKeccakAsm.v, PropKeccakAsm.v). Example: the zero state. Simplification: words of eight bytes at the addresses used either coincide or do not overlap, as both areas are aligned |
| C78 | the list of texts the decoder of ModelDecode.v returns beside the value (InternalCall, base.go:158-187 and call.go) | two specifications apart from the model: the calls in a value (`calls_in`, inner first), and `writes_call`, that a text is the hexadecimal form of a piece of the input which is the encoding of a call; by induction on the relation of C15, and for arbitrary input by induction on the fuel with an invariant for programs other than Call (PropCalls.v). Example: a batch of two calls. The calls in keys of maps are the exception, with a witness |
| C79 | ExtrinsicDecoder as an object with the fields it keeps between runs (ModelExtrinsicUse.v: state and panic monad, so that a recovered panic leaves what was written); ModelExtrinsic.v remains the model of one run of a new decoder | simulation of each statement of the new model by the old one, for an arbitrary state (PropReuse.v); decoding under two pallets with the same overriding types is the same (ProofsPallet.v, relation on the programs of all decoders); invariants of the state through ended and panicked runs; a frame property for InternalCall. Examples: four extrinsics of which one panics; a witness for each exception |
| C80 | The files network/*.json, transcribed by a script (ModelNetworks.v; a row or cell of the wrong JSON kind is the zero value, as encoding/json leaves it); a fresh process that loads one | ProofsNet.v generalises the check of C70 to versioned names and to any registry that answers alike: what a key becomes does not depend on what was visited before it, and ranges of versions that meet name the same decoder. Decoding and encoding ask the registry only by lookup (`alike_decode`, `alike_encode`). The check runs by computation over all files; the four files it refuses have witnesses in `C80_order_refuted` |
| C81 | `Call.Process`, `Call.Encode`, the JSON round trip of a map (ModelBox.v: JSON as a tree; text with U+FFFD for invalid UTF-8, numbers rounded to float64, base64, keys matched in either case in sorted order, at most 10000 levels) | `wire` describes bytes and value together, by induction the value decodes from the bytes and both the value and its JSON image encode to them (`becomes`, `image` in ProofsBox.v); witnesses for the numbers that do not survive |
| C82 | `ProcessSiType`, `RegCustomTypes`, `ProcessMetadata` run twice | every registration of the first run is found by the second, so both runs go the same way: simulation over the steps of `ProcessSiType` (ProofsTwice.v), then C65/C68 for both registries; a witness for the names bound anew; PropTwiceOld.v: versions 9 to 13, whose tables depend on the modules alone |
| C83 | `EventsDecoder.Init`, `Process` as an object with the fields it keeps (ModelEventsUse.v) | the fields kept are the spec version and the pallet; reading the count does not depend on the pallet; induction over the runs |
| C84 | the files of `network/` (ModelNetworks.v) as loaded in C80 | the set of names a file's types reach is computed for one spec version out of each interval between the ends of version ranges (`stands_for`: any other version finds the same decoders), shown closed, and C72_known applied (PropNetKnown.v). For the fifteen definitions left out `C84_known_refuted` decodes an input that needs the missing name |
| C85 | `RegCustomTypes` for maps of one entry, cut at its lock operations (ModelConcurrentV14.v): the look into V14Types, its write, the comparison with the registered type, the lookup of an alias, the registration. Simplified: the comparison is one step, the list of versions a value (C32 has the slices) | an invariant over all schedules (PropConcurrentV14.v): a recorded name is registered or some goroutine is about to register it; one goroutine alone does what `RegCustomTypes` does (`alone`), which gives `C85_serial_partial`; a measure gives `C85_finishes`. Not covered: declarations with a spec version, and aliases of names being declared; both are refuted |
| C86 | `GetCodecClass`, `getCodecInstant`, `specialVersionCodec` and the decoding that calls them, with the registry read from a history (`world`) at each lock operation (ModelLive.v); the elements of a list of versions are never changed in place here (C32 shows they can be) | the live decode agrees with the plain one for programs that ask for known names only (`closed`, from C72), by induction on fuel and on the decoder program (PropLive.v) |
| C87 | the same registration as C61 and C67, and `EncodeWithOpt`, with the encoders of structs, enums, options, results, tuples, lists, compact numbers and calls | the induction of C61 is carried out a second time with the side conditions encoding needs (`writable` in SpecPortable.v, a condition on declarations and values only); then C16, and C55 for calls (PropPortableEncode.v). Six refutations show which conditions cannot be dropped: four here, and those of C06 and C25. A variant name that occurs twice is allowed as long as the value is of the first one in C16; `writable` asks for a name of its own |
| C88 | `GetCodecClass` on a text ending in `>`, the `Init` of each container (`BoundedVec` drops the size) | cutting at the first `<`; lemma on `strings.Replace(..., 1)` of a suffix (PropGeneric.v). The size of a bounded list is looked for from the left, so nested bounded lists with the same size fail (refuted) |
| C89 | the Encode methods as plans (the nested Encode calls in order and what is done with their results) run against a history of the registry (ModelLiveEncode.v) | the plans, run alone, are the Encode methods of ModelEncode.v (`run_codec`); plans that ask for known names only agree, by induction on fuel and on the plan (PropLiveEncode.v) |
| C90 | the text of a decoded key: utiles.ToString over json.Marshal, keys of objects in order (ModelKey.v); texts of floats are not modelled | the text is read back to the JSON value with its keys sorted (`render_back`), values of one type with the same sorted JSON are equal by induction on the format, then C16 gives the bytes (PropKeys.v); signed integers as keys from C05's exact result, for json.Marshal writing a big integer as its numeral (PropSignedKeys.v, PropSignedMap.v) |
| C91 | GenericExtrinsic.ToMap (ModelToMap.v) over the JSON round trip of ModelBox.v; an extrinsic as the decoder leaves it (Params not nil, SignedExtensions nil unless signed) | what JSON makes of a value is given by an inductive relation (`shown`), shown for the model by induction on it, integers exactly through float64 (PropToMap.v) |
| C92 | Sum224 to Sum512 and ShakeSum128/256 over the sponge of ModelSponge.v, with the append into the digest array (ModelSums.v) | from the invariants of C44 and C50 (`fed`, `drained`); reading keeps rate, separator and output length (PropSums.v) |
| C93 | `Compare`, `Eq`, `getTypeStructString` and decoding | shapes of types and their byte strings are specified apart (SpecShape.v); the description of a shape is a prefix-free code, so it determines the shape; every byte string of a shape is a SCALE encoding at each type of that shape, decoded by C15; C40 for what Compare reports (PropShape.v) |
| C94 | `Encode` of structs, enums, tuples, vectors and calls | the model's maps are lists in the order that iteration meets the entries; `shuffled` permutes them at every depth; by induction on the SCALE relation the text is the same (PropMapOrder.v); for calls, marshalling sorts the keys; with C87, for the types and calls of a runtime from the bytes of its metadata (PropMapOrderUse.v) |
| C95 | `Struct.Encode`, the struct variants of `Enum.Encode` | two maps that agree on the declared fields have the same outcome; a missing field is nil; a table by decoder (`nothing`) of what nil writes, proved for all of them (PropFields.v); refusal in general is refuted |
| C96 | `Encode` of numbers, bool, structs, tuples, arrays | `sized` gives the size of a type; by induction on the fuel every text returned has it, for all values (PropFields.v); refuted for hashes, byte arrays, U256 and enums |
| C97 | `Process` of the decoders that read a fixed number of bytes, structs, tuples, arrays, vectors | `spans` gives the size of a type; by induction on it every string of that length is read, through the program logic of ProofsReads.v (PropStride.v) |
| C98 | `Process` and `Encode` of numbers, hashes, eras, structs, tuples, arrays, enums, results | by induction on the fuel, what a faithful type accepts before the end of the buffer satisfies the SCALE relation, so C16 applies (PropLossless.v); refuted for the other types |
| C99 | `tools/merge.go` (ModelMerge.v); reading the files, json.Unmarshal and json.Marshal are inputs | induction over the files against the last file that has the name; the raw string literal of Go is specified separately (PropMerge.v) |
| C100 | `BytesToBnHex` (ModelMerge.v) | induction over the bytes against the decimal numerals of SpecNum.v; refuted in general (PropMerge.v) |
| C101 | `IsNil` for every reflect.Kind (ModelNil.v), `Option.Encode` on top of it | cases of the kind (PropNil.v); panics on arrays |
| C102 | `NextBytes` past the end and `Process` of numbers, compacts, structs, vectors, arrays, enums | simulation between two runs, one over the buffer and one over the buffer with zeros, by induction on the fuel (PropPadding.v); refuted for the other types |

## Trusted base

* Coq 8.16.1's kernel and its virtual machine (`vm_compute` in examples, in
  refutation witnesses and in finite sweeps).
* Axioms: none. `Print Assumptions` prints "Closed under the global context" for
  every property theorem. (The checker also lists `Coq.ssr.ssrunder` constants:
  they come with the ssreflect plug-in of the standard library and no theorem
  here depends on them.)
* The reading of the Go sources. The code was not run; the model is checked only
  by reading, by evaluating examples, and by the wrong programs of
  `seeded/LOG.jsonl`.
* The models of functions outside the repository, which are read from their
  documentation:
  * Go standard library: `strings`, `strconv`, `encoding/hex`, `encoding/binary`,
    `math/big`, `math/bits`, `unicode/utf8`, `regexp` (the fixed expressions of
    the code as hand-written matchers), `encoding/json` for `[][]string`
    and, as trees, for the values of calls.
  * `shopspring/decimal` 1.2.0: value arithmetic of `coef * 10^exp`; `Div` with 16
    digits; `NewFromFloat` as the shortest decimal that reads back.
  * `huandu/xstrings`: `RightJustify`, `LeftJustify`.
* Functions that stay parameters, so that theorems hold whatever they do:
  `e_json` (`json.Marshal` of a value that is not a string or byte slice; C90 asks
  of it what the model `json_key` does), `e_box`
  (the JSON round trip of a call given as a map; C55_map and C81 instantiate it with
  the model `json_box`; the hypothesis `clean_boxes` of C45 is not shown for it),
  `e_keccak` (the hash in
  `EthereumAddress`; C43 also instantiates it with the package's Keccak-256),
  `blake2b_256`, the permutation in C44.

## Which code is modelled

| File | Modelled | Not modelled |
|------|----------|--------------|
| `types/scaleBytes`, `utiles/tools.go`, `utiles/uint128` | all that the codec uses | `Debug`, file helpers |
| `types/*.go` decoders | `Process`, `Encode`, `TypeStructString` of every registered decoder | |
| `types/base.go` | `ProcessAndUpdateData`, `EncodeWithOpt`, `buildStruct`, `Eq`, `getTypeStructString` | reflection beyond the dispatch |
| `types/registry.go`, `customType.go`, `convert`, `override` | all | |
| `types/scaleInfo.go`, `specType.go` | all of `ProcessSiType` | docs |
| `types/metadata.go`, `v13.go`, `v14.go`, `v15.go` | the decoders of all registered records and of versions 9 to 15, the tables built from the modules, storage resolution, constants, errors, `registerOriginCaller` | docs (read and dropped), decoders of versions 0 to 8, which are not registered |
| `types/compare.go` | all | |
| `event.go`, `extrinsic.go` | all | the list of nested calls kept beside the result of the events decoder (that of the extrinsic decoder is in ModelExtrinsicUse.v) |
| `utiles/encointer`, `utiles/crypto/ethereum/encode.go`, `utiles/crypto/keccak` | all | |
| `pkg/go-ethereum/crypto/sha3` | both permutations (keccakf.go and keccakf_amd64.s), both xor versions, sponge, hashes, shake | saving and restoring BP, which the assembler adds to keccakf_amd64.s; build constraints |
| `utiles/crypto/ethereum/common/math` | all | nil receivers |
| `tools/merge.go` | merging, choice of files, the text written | the walk, reading and writing files, JSON (parameters) |
| `metadata.go` | all | |
| `source` | `BaseType` (all definitions, transcribed by a script), `LoadTypeRegistry` after the JSON text has been parsed; the files network/*.json | `encoding/json` |
| `contract` | `Register`, `ToScalePortableType`, `GetTypeNames` | parsing the JSON text (`InitAbi`), the `spec` part, which nothing uses |

## Simplifications

* Case functions (`strings.ToLower`, `EqualFold`) are ASCII only.
* Memory exhaustion and Go's stack limit are not modelled: a recursion that never
  returns is "no fuel suffices".
* Conversions float64 to int follow amd64 (ModelFloat.v); a result that is out of range is left open by the language.
* `sort.Slice` is insertion sort; the theorems about it ask for distinct keys,
  for which there is one sorted order.
* JSON text is treated byte by byte: invalid UTF-8 is not replaced.
* `json.Marshal` followed by `json.Unmarshal` reads fields by their JSON names; where the library ignores the error, a value of another kind leaves the zero value.
* In ModelExtrinsic.v an extrinsic decoder is used once after `Init`; the object with the fields it keeps is in ModelExtrinsicUse.v (C79), that of an events decoder in ModelEventsUse.v (C83).
* `[]ExtrinsicParam` is an input of `Encode` only inside a call given as a map (ModelBox.v).
* The sponge has value semantics; only its own buffer slices are modelled as
  ranges of the storage array.
* Concurrency (C32): a section under the write lock is one step, an append
  without lock is one step, `RegCustomTypes` is seen as its `regCustomKey` calls; C85 has the steps of
  `RegCustomTypes` itself. Data races below that level are not modelled.
* The text of a panic message is not meaningful except in theorems that name it.

## Tests against wrong programs

`seeded/LOG.jsonl` has one line per attempt: a realistic bug put into a model
definition, the claim it breaks, the theorems that no longer compile, and what
was tightened when everything still compiled.
