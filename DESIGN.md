# Formal model of AntelopeIO/bls12-381

Everything is in `rocq/theories` (logical prefix `Verif`).  `/repo` was read as text only; nothing was built or run.

## Layers

| layer (files of `/repo`) | model (definitions only) | proofs |
|---|---|---|
| 64-bit words, limb arrays (`arithmetic.cpp`, `scalar.hpp`, `scalar.cpp`) | `ModelWord`, `ModelScalar`, `ModelMisc` | `ScalarProof`, `ScalarProof2`, `BytesProof`, `CarryProof`, `MaddProof`, `MiscProof` |
| x86-64 assembly (`arithmetic.s`) | `X86` (semantics of the subset), `AsmCode` (instruction lists) | `AsmTac`, `AsmProof1`..`AsmProof4`; vocabulary in `AsmSpec`; `WideProof` for unreduced operands |
| portable arithmetic (`arithmetic.cpp`, `#else` branches), hex (`scalar.cpp`) | `PortArith` | `CarryProof`, `MaddProof`, `ScalarProof2` |
| class fp on values (`fp.cpp`) | `ModelPrim`, `ModelFp` | `FpProof`, `FpProof2`, `InvWide`, `FpCodec` |
| class fp on limbs over both back ends, multiplier selection, `operator<=>` | `ModelLimb` | `LimbProof` |
| division (`scalar.cpp`, `scalar.hpp`) | `ModelDiv` | `DivProof`, `DivProof2` |
| fp2, fp6, fp12 (`fp.cpp`) | `ModelTower` | `TowerProof*` (the abstract tower is a field), `TowerRefine*` (code against tower) |
| g1, g2: arithmetic, scaling, weighted sums, subgroup tests, cofactors (`g.cpp`) | `ModelCurve` | `CurveProof` (group law), `CurveRefine*`, `CurveReps`, `CurveMaps`, `Endo`, `SubgroupProof`, `Cofactor`, `CurveBase`, `GroupCount`, `Orders` |
| point codecs (`g.cpp`) | `ModelCodec` | `CodecProof`, `CodecProof2` |
| maps to the curves (`g.cpp`) | `ModelMap` | `MapProof`, `MapConst`, `MapComp`, `MapG1`, `MapG2` |
| pairing (`pairing.cpp`) | `ModelPairing` | `Pair*` |
| SHA-256 (`sha256.cpp`) | `ModelSha` | `ShaProof` |
| HMAC, HKDF, xmd (`signatures.cpp`) | `ModelKdf` | `KdfProof` |
| keys (`signatures.cpp`) | `ModelKeys` | `KeysProof`, `KeysExact` |
| signatures (`signatures.cpp`, `signatures.hpp`) | `ModelSig` | `SigProof`, `WireProof`, `WireProof2`, `HashCert`, `HashVec`, `HashVec2`, `TotalProof` |
| the same routines on arrays with checked indices | `ModelMem` | `MemProof`, `MemCurve`, `MemDiv`, `MemDiv2`, `MemHex`, `MemSha` |
| in-place operations on a memory, arguments by address | `ModelAlias` | `AliasProof`, `GenProof` |
| yield callbacks | `ModelYield` | `YieldProof` |
| memory accesses of the assembly, operations of `scale`, branches of `fp::inverse` (side channels) | `ModelLeak` | `LeakProof`, `InvLeak` |
| accesses and branches of the hash functions (side channels) | `ModelTrace` | `TraceProof` |
| branches of the division and of the key functions that call it (side channels) | `ModelDivLog` | `DivLogProof` |
| malloc/free and failing allocations in the key derivation | `ModelHeap` | `HeapProof` |

Specification files, independent of the models: `SpecField` (Z/p and its tower, Leibniz equality), `SpecCurve` (affine chord-tangent
law), `SpecBytes`, `SpecCodec`, `SpecHash` (FIPS 180-4, RFC 2104, 5869, 9380), `SpecKeys`, `SpecMap` (RFC 9380), `SpecPairing` (Miller
functions), `SpecSig`, `SpecWire` (strings and the points they stand for), `SpecOrder`, `SpecAlias`, `SpecYield`.  Pure mathematics used by several layers: `AbGroup`, `RingPow`, `PowTwo`,
`NumTheory`, `Primes`, `Primes2`, `FieldProof`, `I63`, `I63b`.

The property theorems are in the `Properties_*.v` files.  A name starts with the identifier of its property (`C28_...`).  `_refuted`: the
natural claim is false for this code; the theorem proves its negation from a witness, and the theorems beside it give the exact
condition under which it holds.  Each property comes with an `Example` that instantiates the hypotheses.

## Representation decisions

* An `fp` object (six little-endian 64-bit limbs) is represented in the higher layers by the integer `sum d[i]*2^(64 i)`.  The
  primitives `_add`, `_subtract`, `_multiply`... are functions on these integers.  C01-C04 prove that the interpreted assembly
  stores exactly these values for every memory and every aliasing of the pointers; C59 proves that class fp written on limbs, over
  the assembly, computes what the value-level model computes, and C81 the same for all the classes and functions above it.
* A canonical object (value < p) represents the element value * 2^-384 of Z/p (Montgomery form).
* `std::array<uint64_t,N>` is a list of integers of length N; machine words are integers with explicit `mod 2^64`.
* A function of g1 and g2 (or fp and fp2) with the same body is written once over a record of field operations; the citation
  gives both places.
* Outcomes: `Ok`, `Throw` (C++ exception), `OutOfBounds`; in `ModelMem` None is an access outside an array, a shift by
  an amount not below the word width, or a division by 0.  A result
  `std::optional` is an option.
* A loop without a bound in the source has fuel; the theorems either show that the fuel suffices (`fp::inverse`, `bn_divn`; the latter for
  divisors whose top limb is not zero, or is zero above a limb with its top bit set; nothing is claimed for other divisors) or hold
  for every fuel (`sk_from_seed`/`secret_key`, which may loop for ever in principle).

## How the properties are proved

* C01-C03: x86 interpreter, symbolic execution, carry-chain equations, range argument.
* C04: range theorem; witness for the refuted part.
* C05-C07, C15-C17: limb algebra over Z, induction over limb and byte lists, witnesses for refuted claims.
* C08-C13: value model against Z/p; Kaliski invariants for inversion; Fermat (from primality of p) for roots.
* C14: Knuth D for arbitrary lengths.
* C18-C23: refinement to the abstract tower, `ring`; Frobenius by the binomial theorem in characteristic p.
* C24-C29: Jacobian formulas against the affine law by `field`; associativity by the slope identity; scaling by induction.
* C30, C31, C54-C56: endomorphism algebra (sigma^2+sigma+1=0, psi^4-psi^2+1=0) and group orders.
* C32-C34: codec lemmas on top of C09, C12, C13, C19.
* C35: polynomial identities for SWU and the isogenies; group exponents for cofactor clearing.
* C36-C40: refinement of the streaming code to the specification functions.
* C41-C43: homomorphism facts.
* C44-C46: multiplicativity of the Miller loop and final exponentiation; bilinearity through the Miller-function cocycle.
* C47-C51, C57: combination of the above.
* C52: Pocklington certificates checked in Coq; explicit points for the group orders.
* C53: every access of the array-level model is checked; theorems say when none fails and that the values agree.
* C58: memory model with addresses; the result of each in-place operation for every allowed aliasing.
* C59-C61: class fp on limbs, multiplier selection, comparison operators.
* C62: callbacks as state transformers that may throw.
* C63: constants, by computation.
* C64: a heap with arbitrary allocation failures and arbitrary contents of uninitialised arrays.
* C65: an abstract interpreter (registers and stack slots as entry pointer + constant), proved sound, run on the nine routines.
* C67: decoders (C32-C34) composed with verify (C48); `HashCert`/`HashVec` evaluate hash_to_curve on two messages (the RFC 9380 vector, and "hi")
  from certificates, so that the hypotheses "hash not the identity" are met by a concrete message.
* C73: `WireProof2` follows `add` on opposite points to its exact coordinates; `HashVec2` evaluates the hash of a proof of possession.
* C68, C71, C72: from the equations of C48, C50, C51 (accepted = a·G1 and a·H for one a) and the prime order of the generators.
* C41_exact, C42_exact, C42_deficit: `KeysExact` follows the four limb additions with an extra digit for each dropped carry.
* C69: child keys of C41 iterated; the spec relation `leads` is arithmetic mod r on secret keys.
* C70: the two SHA-256 inputs of expand_message_xmd are written out, parsed back, and equal outputs traced to equal inputs or an explicit collision.
* C75: the outcomes of the models of C44-C51 for arbitrary points, message lengths through the conversion to `int`.
* C76: the interpreted assembly of C01-C04 on operands that are not reduced; the rule of `arithmetic.hpp:26-29` for `_lsubtract` is false.
* C77: `ModelTrace.v`, the array-level hash functions of `ModelMem.v` with a log of accesses and branches (no values); erasing the log gives `ModelMem.v`.
* C78: `ModelDivLog.v`, the division of `ModelDiv.v` with a log of its branches (not those inside its helper functions); erasing the log gives `ModelDiv.v`; the rounds of the top-digit loop are counted by induction.
* C79: no new model.  `SpecCount.v` says that a set has n elements.  `MapCount.v` bounds the inputs of the simplified SWU map with a given image, `MapCount2.v` bounds the roots of the polynomial whose zeros are the preimages of an abscissa under the isogeny, `MapCount3.v` adds the fibres of the cofactor multiplication (from the group orders of C36), `MapCount4.v` counts byte strings with a given residue and the pairs of field elements with a given sum.
* C80: no new model.  `SpecCollide.v` lists those of the strings hashed by RFC 2104, 5869, 9380, the BLS draft and EIP-2333 that are needed for a collision (the first block of an expansion, the first Lamport secret, b_0 and b_1), and a collision is between strings at the same position; `CollideProof.v` walks back from equal outputs.
* C81: `ModelLimbLib.v` repeats the definitions of `ModelTower.v`, `ModelCurve.v`, `ModelCodec.v`, `ModelMap.v`, `ModelPairing.v`, `ModelKeys.v` and `ModelSig.v` on six-limb field elements over a back end of `ModelLimb.v`; constants are the limbs of the constants of those files; the parts of the files that are generic over a record of field operations, and scalars, SHA-256 and the key derivation, are shared.  `SpecLimb.v` says when limbs stand for a value; `LibProof1.v` to `LibProof5.v` carry the relation through every function.  Aliasing of arguments is the subject of C58, not of this file.
* C82: no new model of library code; `aug` in `Properties_Aug.v` is the composition of calls in test/unittests.cpp:1963-1990.
* C83: no new model; relates `portable` and `x86 code` of `ModelLimb.v`. For squaring only the sufficient condition is proved; the count is an upper bound.
* C84: no new model.  `SpecThreshold.v` says what a weighted sum, a polynomial and distinct indices are; `ThresholdProof.v` proves Lagrange interpolation at 0 modulo a prime; `weightedSum`, `sign`, `verify` and `public_key` are those of `ModelCurve.v`, `ModelKeys.v`, `ModelSig.v`.  Dealing the shares (choosing the polynomial at random) is not part of the library and not modelled; C84_hidden counts the polynomials that fit given shares.
* C85: no new model; `batch` in `Properties_Batch.v` is a caller of `scale`, `weightedSum` and `aggregate_verify`, not a function of the library.  The point of order 13 is the one used in the group order computation of `Orders.v`.
* C66: the loop of `scale` with a log of its calls; the log is decoded to the scalar.
* C74: the loop of `fp::inverse` with a log of its branches, decoded by running the linear steps backwards from (1, 0).

## Trusted base

* The Coq 8.16.1 kernel, including `vm_compute`.
* What `Print Assumptions` lists for each theorem: see the last section.
* The transcription of C++ and assembly into Gallina.  Every model definition cites file and lines; where the model departs
  from the source the comment says so, and the next section collects it.
* The specifications in the `Spec*.v` files.

## Modelled

All functions of `src/arithmetic.s`, `src/arithmetic.cpp`, `src/fp.cpp`, `src/g.cpp`, `src/pairing.cpp`, `src/scalar.cpp`, `src/sha256.cpp`,
`src/signatures.cpp`, the templates and inline functions of `scalar.hpp` and `signatures.hpp`, and the defaulted comparison operators of
`fp.hpp` and `g.hpp`.  Both arithmetic back ends are modelled (x86-64 assembly with the MULX/ADX and the plain multiplier; portable C++).

## Simplified

* Reading and writing of objects: functions take and return values.  That in-place operations with coinciding arguments are described
  correctly is the subject of C58; constructors, copies and assignment of the structs are the identity on values.
* The higher layers use the values of the assembly back end; C81 carries them to limbs and interpreted instructions.  The portable
  back end differs on some inputs (C06, C07, C59, C81); theorems of the higher layers speak about the x86-64 build, and about the
  portable build where its primitives agree.
* A sum of several `uint32_t` terms in SHA-256 is reduced once.
* Allocation always succeeds (`malloc`, `std::vector`, `std::string`), except in `ModelHeap` where any call of `malloc` may fail (C64).
* Streams: `operator<<` with `hex`, `setw`, `setfill` is modelled by its effect on unsigned integers (`ModelMisc`).
* The multiplier selection takes the environment and the CPUID answers as parameters.
* Pointers of the division routines are lists with checked indices.
* Namespace-scope constants (`fp::R2`, `g1::BASE`, `CIPHERSUITE_ID`, ...) have their values from the start.  Their initialisers are literals and
  do not refer to one another, so this holds in every call made after static initialisation; calls made from other static initialisers
  are outside the model.

## Validation of the transcription

`validation/run.py` extracts the Model files to OCaml and repeats the unit tests of `/repo/test` that carry expected values
(EIP-2333 keys, mapToCurve of both groups, the pairing of the generators, the IETF signature, the 104 FileCoin vectors for
hash, signature and key, the Chia and proof-of-possession sets, modPrime, exp, inverse, out-of-range multiplication, rejected
encodings, weighted sums).  The expected values are read as text; nothing of /repo is built or run.  All 804 comparisons agree.
`validation/asm.py` prints the instruction lists of `AsmCode.v` back in AT&T syntax and compares them with `/repo/src/arithmetic.s`: all
instructions of the nine functions agree.
These are tests of the model, not proofs; no theorem depends on them, and they are not part of the trusted base.

## Not modelled

* Time, power and other side channels, except the address traces of the assembly (C65), the operation log of `scale` (C66), the branches of `fp::inverse` (C74), the accesses and branches of the hash functions (C77) and the branches of the division (C78).  Instruction
  latency is not modelled; `secure_zero`-like effects do not occur in the source.
* Threads.  `_multiply` as a mutable function pointer (non-ELF build) is initialised once.
* `isogenyMapG2` (`g.cpp:1387-1487`) is inside a comment of the source.
* The compiler, the linker's ifunc mechanism, the directives of `arithmetic.s` (`.type`, `.size`, `.globl`), the return address on the stack.
* The tests and benchmarks of the repository.

## How to read seeded/LOG.jsonl

Each line is one wrong program (or wrong specification) tried in a scratch copy.  The build is stopped at the first error.

* `first_failure` is what was observed: the file, line and lemma where the build stopped.
* `theorems_failed` is in general derived, not observed: the theorems of the Properties files that depend, through any number of lemmas, on
  the lemma that failed.  Such a theorem is no longer proved; that its statement became false is not claimed.
* An entry that says the build was stopped by the time limit had no error message; its note says what was seen.
* `survived` is the final state.  Where a theorem was added because of the entry, `theorems_tightened` names it.
* A failure of a proof script is not by itself a proof that the statement became false: equivalent programs can also break a script
  (such cases that were recognised carry a note).

## Print Assumptions, theorem by theorem
Two sets of assumptions occur.

* *closed*: `Closed under the global context`.
* *uint63*: the primitive 63-bit integers of the standard library (`Coq.Numbers.Cyclic.Int63`), namely the type and the
  operations `PrimInt63.int add sub mul land lor lsl lsr eqb leb ltb` and the standard library's specification axioms
  `Uint63.add_spec sub_spec mul_spec land_spec lor_spec lsl_spec lsr_spec ltb_spec leb_spec of_to_Z eqb_correct eqb_refl`.
  They enter through `I63.v`/`I63b.v`, a fast modular arithmetic used to check large computed certificates
  (group orders, isogeny identities, the pairing of the generators).

| file | theorems | uint63 (every other theorem of the file is closed) |
|---|---|---|
| `Properties_Alias` | 30 | none |
| `Properties_Asm` | 8 | none |
| `Properties_Aug` | 4 | C82_honest, C82_plain_refuted, C82_rogue |
| `Properties_Batch` | 5 | C85_complete, C85_sound, C85_one_weight, C85_unchecked_refuted, C85_unweighted_refuted |
| `Properties_Codec` | 25 | C32_g1_format, C32_g2_format, C32_g1_roundtrip, C32_g2_roundtrip, C32_g1_injective, C32_g2_injective, C32_g1_infinity_refuted, C32_g2_infinity_refuted, C33_g1_accepts, C33_g1_rejects, C33_g2_accepts, C33_g2_rejects, C33_g1_canonical, C33_g2_canonical, C33_g1_unique_refuted |
| `Properties_Collide` | 8 | C80_unhardened, C80_verify, C80_sig_pop |
| `Properties_Const` | 6 | none |
| `Properties_Count` | 12 | C79_swuMapG1, C79_swuMapG2, C79_swu_collision_refuted, C79_g1_mapToCurve, C79_g2_mapToCurve, C79_strings, C79_fromMessage |
| `Properties_Curve` | 32 | none |
| `Properties_DivLog` | 5 | C78_child |
| `Properties_Fp` | 23 | none |
| `Properties_Hash` | 14 | none |
| `Properties_Heap` | 11 | none |
| `Properties_Keys` | 22 | C41_commutes, C41_g1, C41_g2, C42_homomorphism |
| `Properties_Leak` | 7 | none |
| `Properties_Leak2` | 8 | none |
| `Properties_Lib` | 17 | C81_wire_verify, C81_wire_pop, C81_wire_aggregate, C81_honest, C81_portable_refuted |
| `Properties_Limb` | 20 | none |
| `Properties_Map` | 10 | C35_spec_total, C35_swuMapG1, C35_swuMapG2, C35_g2_mapToCurve, C35_g2_mapToCurve_valid, C35_g1_mapToCurve, C35_g1_mapToCurve_onCurve, C35_g1_mapToCurve_refuted, C55_clearCofactor_g2 |
| `Properties_Mem` | 29 | none |
| `Properties_Misc` | 5 | none |
| `Properties_Pairing` | 19 | C44_value, C44_value_direct, C44_product, C44_permutation, C44_representation, C45_pairing_order, C46_bilinear, C46_scale, C46_additive, C46_generators, C46_nondegenerate |
| `Properties_Port` | 4 | none |
| `Properties_Primes` | 2 | none |
| `Properties_Scalar` | 53 | none |
| `Properties_Scheme` | 34 | C68_add, C68_scale, C68_negate, C68_unscale, C68_concat, C68_cancel, C68_participation, C68_merge, C68_fast, C68_fast_refuted, C68_sum_refuted, C69_path, C69_recover, C69_siblings, C69_related, C69_identity_refuted, C70_sig_pop, C71_public_key, C71_identity, C71_bytes, C71_sign, C71_words_refuted, C42_exact, C41_exact, C42_sign, C72_derive |
| `Properties_Sig` | 40 | C47_spec_total, C47_fromMessage, C47_sign, C47_honest, C48_accepts, C48_equation, C48_unique, C48_checked, C48_representation, C48_message_binding, C48_key_binding, C49_identity, C49_identity_verifies, C49_identity_signature, C49_pop_identity, C49_aggregate_identity, C50_accepts, C50_checked, C50_honest, C50_permutation, C50_empty, C50_single, C51_pop_accepts, C51_pop_honest, C51_pop_unique, C51_fast_accepts, C51_fast_honest, C51_individual_keys_refuted, C51_rogue_key |
| `Properties_Subgroup` | 16 | C30_inCorrectSubgroup, C30_multiples, C31_inCorrectSubgroup, C31_multiples, C52_base_order, C52_E1_order, C52_E2_order, C55_clearCofactor_g1, C55_clearCofactor_g1_test, C55_clearCofactor_g2_test, C55_clearCofactor_injective, C56_glv, C56_psi |
| `Properties_Threshold` | 7 | C84_keys, C84_signatures, C84_accepted, C84_one_wrong, C84_threshold, C84_too_few |
| `Properties_Total` | 7 | C75_verify, C75_sign, C75_aggregate_verify, C75_fast_aggregate_verify, C75_pop |
| `Properties_Tower` | 70 | none |
| `Properties_Trace` | 5 | none |
| `Properties_Wide` | 12 | none |
| `Properties_Wire` | 8 | C67_accepts, C67_roundtrip, C67_malleability, C67_canonical_unique, C67_unique_refuted, C67_infinity_refuted, C67_affine_BE, C67_affine_LE |
| `Properties_Wire2` | 10 | C73_pop_accepts, C73_aggregate_accepts, C73_fast_accepts, C73_pop_reencode, C73_aggregate_reencode, C73_pop_roundtrip, C73_aggregate_roundtrip, C73_opposite, C73_identity_refuted, C73_subgroup_refuted |
| `Properties_Yield` | 5 | none |

No theorem depends on any other axiom.
