{"id": "C01", "title": "Field addition, doubling, subtraction and negation are exact on x86-64", "statement": "On x86-64, for every two canonical base-field elements, add / dbl / subtract / negate return the canonical representative of the sum / double / difference / opposite modulo p, also when the output object is one of the inputs.", "quantifier": "all pairs of canonical field elements (2^762 of them), all aliasing patterns of the pointer arguments", "why_tests_cant": "carry and borrow chains only misbehave for rare limb patterns; random tests hit them with probability about 2^-64", "anchors": ["src/arithmetic.s:_add,_double,_subtract,__negate", "src/arithmetic.cpp:_negate", "src/fp.cpp:fp::add,fp::dbl,fp::subtract,fp::negate"]}
{"id": "C02", "title": "Field multiplication and squaring are exact Montgomery products on x86-64", "statement": "On x86-64, for every two operands x,y with x*y < p*2^384 (in particular both below 3p, or one of them canonical and the other any 384-bit value), multiply / square return the unique canonical z with z*2^384 = x*y modulo p; callee-saved registers and the stack pointer are restored and nothing but the result object and dead stack is written.", "quantifier": "all operand pairs in the stated range, all aliasing patterns, all initial register and memory contents", "why_tests_cant": "a wrong carry in one of the ~300 adc instructions shows only for sparse operand patterns", "anchors": ["src/arithmetic.s:__multiply,__mul_ex", "src/arithmetic.cpp:_multiply,_square"]}
{"id": "C03", "title": "The two x86-64 multipliers are interchangeable", "statement": "Whichever multiplier the load-time CPU detection selects (plain mul or mulx/adcx/adox), every multiplication in the documented operand range gives bit-identical results, so results never depend on the CPU or on the BLS_DISABLE_BMI2 environment variable.", "quantifier": "all operand pairs with x*y < p*2^384, both multipliers", "why_tests_cant": "a test run executes only the one multiplier picked by the CPU it runs on", "anchors": ["src/arithmetic.cpp:resolve_blsmul,cpu_has_bmi2_and_adx", "src/arithmetic.s:__multiply,__mul_ex"]}
{"id": "C04", "title": "The documented operand limit of multiply ('smaller than around 4p')", "statement": "The header says multiplication works for operands up to about 4p. The exact limit for a canonical result is x*y < p*2^384 (sufficient); for operands below 4p the result is always congruent and below 2p but there are operands below 4p whose product is returned non-canonically (>= p), breaking equality tests.", "quantifier": "all operand pairs below 4p", "why_tests_cant": "the claim is about the whole operand range, and the failing pairs are in the corner of the range", "anchors": ["include/bls12-381/arithmetic.hpp:_multiply comment", "src/arithmetic.s:__multiply"]}
{"id": "C05", "title": "Add64 / Sub64 carry contract", "statement": "Add64 and Sub64 return sum/difference with carry/borrow. The low word is always right; the returned carry (borrow) is right exactly unless y = 2^64-1 and the incoming carry (borrow) is 1, in which case it is wrong (0 is returned instead of 1).", "quantifier": "all x,y < 2^64 and carry in {0,1}", "why_tests_cant": "the failing set has density 2^-64, a random test never finds it", "anchors": ["src/arithmetic.cpp:Add64,Sub64"]}
{"id": "C06", "title": "The portable (non-x86) field addition, subtraction, doubling, negation", "statement": "On canonical operands the portable C++ implementations of add, double, subtract and negate return the canonical result if and only if no carry (borrow) of the lower limbs meets an all-ones limb of the second operand; in particular always when no limb of it is 2^64-1. The unreduced variants are right modulo 2^384 under exactly the same condition. There exist canonical field elements for which they return a wrong field element.", "quantifier": "all pairs of canonical field elements", "why_tests_cant": "failing operands have density about 2^-127", "anchors": ["src/arithmetic.cpp:_add,_double,_subtract,_negate,Add64,Sub64"]}
{"id": "C07", "title": "The portable (non-x86) Montgomery multiplication", "statement": "For all canonical operands the portable C++ multiply returns the canonical Montgomery product (same value as the x86-64 code). The portable squaring routine uses doubled partial products whose super-high carry can be lost: it equals the product unless one of ten doubled limb products is, modulo 2^128, within 3*2^64 of 2^128, and some canonical operand is squared wrongly.", "quantifier": "all canonical operand pairs", "why_tests_cant": "same sparse-carry argument; and CI runs on x86 never execute this code", "anchors": ["src/arithmetic.cpp:_multiply,_square,madd0,madd1,madd2,madd3,madd1s,madd2s,madd1sb,madd2sb"]}
{"id": "C08", "title": "Montgomery encoding is a bijection", "statement": "toMont followed by fromMont (and the reverse) is the identity on canonical values; toMont of any 384-bit value is the canonical encoding of that value mod p; isValid holds exactly for values below p.", "quantifier": "all 384-bit values", "why_tests_cant": "needs every value", "anchors": ["src/fp.cpp:fp::toMont,fp::fromMont,fp::isValid"]}
{"id": "C09", "title": "Base-field byte codecs round-trip and reject non-canonical input", "statement": "fp::fromBytesBE/LE with validity check accept exactly the 48-byte strings encoding an integer below p, toBytes is the inverse, the two endiannesses are byte reversals of each other, and distinct elements have distinct encodings.", "quantifier": "all 48-byte strings, all field elements, both conversion options", "why_tests_cant": "2^384 inputs", "anchors": ["src/fp.cpp:fp::fromBytesBE,fp::fromBytesLE,fp::toBytesBE,fp::toBytesLE"]}
{"id": "C10", "title": "Field inversion is correct and terminates", "statement": "For every nonzero canonical x, inverse returns the canonical y with x*y = 1; inverse(0) = 0; the bounded loop (768 iterations) never runs out; the internal 384-bit registers never overflow and the power-of-two correction never indexes outside the 6 limbs. The same for unreduced operands: for every 384-bit x the result is canonical and inverts the residue of x, or is 0 when p divides x.", "quantifier": "all 384-bit operands", "why_tests_cant": "the worst-case iteration count and the k<=384 special case depend on the individual input", "anchors": ["src/fp.cpp:fp::inverse"]}
{"id": "C11", "title": "Field exponentiation", "statement": "exp(s) returns x^s for every x and every scalar of every limb width (exp(0)=1).", "quantifier": "all field elements, all scalars, all limb counts", "why_tests_cant": "unbounded family of inputs", "anchors": ["include/bls12-381/scalar.hpp:scalar::exp", "src/fp.cpp:fp::exp"]}
{"id": "C12", "title": "Field square root is sound and complete", "statement": "fp::sqrt returns true exactly when the input is a square, and then the output squared equals the input; the output may alias the input. isQuadraticNonResidue is true exactly for non-squares, except that it also returns true for 0.", "quantifier": "all field elements", "why_tests_cant": "completeness is a statement about every square, and rests on the primality of p", "anchors": ["src/fp.cpp:fp::sqrt,fp::isQuadraticNonResidue"]}
{"id": "C13", "title": "Sign of a field element", "statement": "isLexicographicallyLargest(y) holds exactly when y > (p-1)/2 as an integer, so for y != 0 exactly one of y, -y is lexicographically largest; sign() is true exactly when the integer value is even, so for y != 0 exactly one of y,-y has sign true.", "quantifier": "all field elements (and the fp2 versions: all quadratic elements)", "why_tests_cant": "the unique choice of square root in point decompression relies on it for every y", "anchors": ["src/fp.cpp:fp::isLexicographicallyLargest,fp::sign,fp2::isLexicographicallyLargest,fp2::sign"]}
{"id": "C14", "title": "Multi-precision division (bn_divn_safe / modPrime)", "statement": "For every dividend of N limbs and divisor of M<=N limbs whose top limb is nonzero and below 2^63, the division terminates, never divides by zero, and returns quotient and remainder with a = q*b + r, 0 <= r < b; with a top limb of 2^63 or more the same holds if N > M or the top limb of the dividend is at least 2, and otherwise the routine writes below its buffer; a zero top limb is handled when the limb below it is at least 2^63; modPrime reduces any integer of at least 6 limbs modulo p.", "quantifier": "all limb counts and all limb contents", "why_tests_cant": "Knuth-D add-back branches are taken with probability ~2^-63; termination is universal", "anchors": ["src/scalar.cpp:bn_divn_low and helpers", "include/bls12-381/scalar.hpp:bn_divn_safe", "src/fp.cpp:fp::modPrime"]}
{"id": "C15", "title": "Scalar addition and multiplication", "statement": "scalar::multiply never writes outside the result when NC >= NA+NB, never returns more than the product, and returns the exact product if and only if no carry is lost when a row is added to the partial product; there are operands for which it is wrong. scalar::add returns the exact sum if and only if no carry enters an all-ones limb of the second operand and the sum fits in max(NA,NB) limbs; there are operands for which the returned sum is wrong, and when the sum overflows max(NA,NB) limbs the result either throws or misplaces the carry word.", "quantifier": "all limb counts, all limb contents", "why_tests_cant": "failing inputs have density 2^-64", "anchors": ["include/bls12-381/scalar.hpp:scalar::add,scalar::multiply"]}
{"id": "C16", "title": "Scalar byte, bit and shift helpers", "statement": "toBytes/fromBytes (LE, BE) round-trip for every limb count and are byte reversals of each other; bitLength is the position of the highest set bit; rsh(s,k) is floor division by 2^k for every k; cmp and equal decide the order and equality of the represented integers.", "quantifier": "all limb counts, all contents, all shift amounts", "why_tests_cant": "unbounded family", "anchors": ["include/bls12-381/scalar.hpp:toBytesLE,toBytesBE,fromBytesLE,fromBytesBE,bitLength,rsh,cmp,equal"]}
{"id": "C17", "title": "Hex codec round-trip", "statement": "hexToBytes(bytesToHex(b)) = b for every byte string, with or without 0x prefix, and for upper-case digits too.", "quantifier": "all byte strings", "why_tests_cant": "unbounded lengths", "anchors": ["src/scalar.cpp:hexToBytes,bytesToHex"]}
{"id": "C18", "title": "Quadratic extension arithmetic", "statement": "fp2 add, subtract, negate, double, multiply, square, inverse, conjugate, mulByNonResidue, mulByB, mulByFq compute the corresponding operation of Fp[u]/(u^2+1) for all canonical inputs, and results are canonical; inverse(0)=0. squareAssign's unreduced intermediates stay within the range where multiply is exact.", "quantifier": "all canonical fp2 elements", "why_tests_cant": "unreduced (lazy) intermediates are only safe by a range argument", "anchors": ["src/fp.cpp:fp2::*"]}
{"id": "C19", "title": "Quadratic extension square root", "statement": "fp2::sqrt returns true exactly for the squares of Fp2 and then returns a root; the output may alias the input; isQuadraticNonResidue holds exactly for nonsquares and for 0.", "quantifier": "all fp2 elements", "why_tests_cant": "completeness over p^2 elements", "anchors": ["src/fp.cpp:fp2::sqrt,fp2::isQuadraticNonResidue"]}
{"id": "C20", "title": "Sextic extension arithmetic", "statement": "fp6 add, subtract, negate, double, multiply, square, inverse, mulByNonResidue, mulByBaseField and the sparse products mulBy01/mulBy1 compute the operations of Fp2[v]/(v^3-(1+u)).", "quantifier": "all fp6 elements", "why_tests_cant": "Karatsuba-style formulas have corner monomials that a few vectors need not exercise", "anchors": ["src/fp.cpp:fp6::*"]}
{"id": "C21", "title": "Dodecic extension arithmetic", "statement": "fp12 add, subtract, negate, double, multiply, square, inverse, conjugate and the sparse line product mulBy014 compute the operations of Fp6[w]/(w^2-v).", "quantifier": "all fp12 elements", "why_tests_cant": "as above", "anchors": ["src/fp.cpp:fp12::*"]}
{"id": "C22", "title": "Frobenius maps", "statement": "frobeniusMapAssign(k) raises to the p^k-th power for every element and every documented k (fp2, fp6: every k; fp12: k<=11). The value-returning fp6::frobeniusMap(3) (and fp12::frobeniusMap(3),(9)) do not: there are elements for which they return a wrong result.", "quantifier": "all tower elements, all powers", "why_tests_cant": "the constants are tested only through the pairing, which never calls the wrong case", "anchors": ["src/fp.cpp:fp2::frobeniusMap,fp6::frobeniusMap,fp12::frobeniusMap,frobeniusMapAssign,frobeniusCoeffs*"]}
{"id": "C23", "title": "Cyclotomic squaring and exponentiation", "statement": "For every element of the cyclotomic subgroup (norm-1 condition a^(p^4-p^2+1)=1) cyclotomicSquareAssign equals squaring and cyclotomicExp equals exponentiation; after the easy part of the final exponentiation every value is in that subgroup.", "quantifier": "all elements of the cyclotomic subgroup", "why_tests_cant": "the formula is wrong outside the subgroup, so membership must be an invariant", "anchors": ["src/fp.cpp:fp12::cyclotomicSquareAssign,fp4Square", "include/bls12-381/scalar.hpp:cyclotomicExp"]}
{"id": "C24", "title": "G1 point addition, doubling, negation, subtraction implement the group law", "statement": "For all points on the curve, in any Jacobian representation including infinity, equal points, opposite points and aliased arguments, add/dbl/negate/subtract return a representation of the mathematical sum/double/opposite/difference on y^2=x^3+4.", "quantifier": "all pairs of curve points and all their Jacobian representations", "why_tests_cant": "exceptional cases (P+P, P+(-P), infinity operands) and projective scaling are combinatorial; group law needs algebra", "anchors": ["src/g.cpp:g1::addAssign,g1::doubleAssign,g1::negate,g1::subtract"]}
{"id": "C25", "title": "G2 point addition, doubling, negation, subtraction implement the group law", "statement": "Same as for G1, over Fp2 and y^2=x^3+4(1+u).", "quantifier": "all pairs of curve points and all their Jacobian representations", "why_tests_cant": "as for G1", "anchors": ["src/g.cpp:g2::addAssign,g2::doubleAssign,g2::negate,g2::subtract"]}
{"id": "C26", "title": "Point equality, affine normalisation and curve test are representation independent", "statement": "equal decides equality of the represented points; affine returns the representation with z=1 of the same point (or the unchanged object for infinity); isOnCurve holds exactly for representations of curve points, and for every triple with z=0.", "quantifier": "all Jacobian triples", "why_tests_cant": "infinitely many representations per point", "anchors": ["src/g.cpp:g1::equal,g1::affine,g1::isOnCurve,g2::equal,g2::affine,g2::isOnCurve"]}
{"id": "C27", "title": "The curve points form an abelian group", "statement": "Point addition as computed by the library is commutative and associative up to equal, with zero() neutral and negate inverse.", "quantifier": "all triples of curve points", "why_tests_cant": "associativity is the classical non-trivial theorem", "anchors": ["src/g.cpp:g1::add,g2::add"]}
{"id": "C28", "title": "Scalar multiplication", "statement": "g1::scale and g2::scale return the s-fold sum for every point and every scalar of every limb count.", "quantifier": "all points, all scalars, all limb counts", "why_tests_cant": "unbounded family", "anchors": ["include/bls12-381/scalar.hpp:scale", "src/g.cpp:g1::scale,g2::scale"]}
{"id": "C29", "title": "Multi-scalar multiplication", "statement": "weightedSum(points, scalars) equals the sum of the individual scalar multiples for all lists (any length, any 256-bit scalars); surplus points or scalars are ignored.", "quantifier": "all lists of points and scalars", "why_tests_cant": "bucket and window bookkeeping depends on list length and scalar bits", "anchors": ["src/g.cpp:g1::weightedSum,g2::weightedSum"]}
{"id": "C30", "title": "G1 subgroup check is sound and complete", "statement": "For every point on the curve, inCorrectSubgroup is true exactly when r*P is the identity, r being the 255-bit group order.", "quantifier": "all points of E(Fp)", "why_tests_cant": "the endomorphism shortcut is justified by algebra, not by samples; small-subgroup points must all be rejected", "anchors": ["src/g.cpp:g1::inCorrectSubgroup,g1::glvEndomorphism"]}
{"id": "C31", "title": "G2 subgroup check is sound and complete", "statement": "For every point on the twist, inCorrectSubgroup implies r*P = identity, and every multiple of the generator passes.", "quantifier": "all points of E'(Fp2)", "why_tests_cant": "as for G1", "anchors": ["src/g.cpp:g2::inCorrectSubgroup,g2::psi"]}
{"id": "C32", "title": "Compressed point encoding round-trips", "statement": "For every finite curve point P in any representation, toCompressedBytesBE writes the reference (ZCash) encoding and decoding it yields a point equal to P. For the point at infinity this fails: the encoding of g1::zero() decodes to a different, finite point, and the encoding of g2::zero() is rejected by the decoder; only the representation (0,0,0) of infinity is encoded correctly.", "quantifier": "all curve points in all representations", "why_tests_cant": "sign-bit selection must be right for every y; infinity has many representations", "anchors": ["src/g.cpp:g1::toCompressedBytesBE,g1::fromCompressedBytesBE,g2::toCompressedBytesBE,g2::fromCompressedBytesBE"]}
{"id": "C33", "title": "Compressed point decoding: what is accepted", "statement": "Whatever 48/96 bytes are decoded, a returned point is on the curve and its sign bit matches; but decoding is not canonical: there are two different byte strings that decode to the same point (x in [p,2^381) is accepted, and junk bits with the infinity flag).", "quantifier": "all byte strings", "why_tests_cant": "adversarial inputs; malleability is about existence of colliding encodings", "anchors": ["src/g.cpp:g1::fromCompressedBytesBE,g2::fromCompressedBytesBE"]}
{"id": "C34", "title": "Affine and Jacobian point encodings", "statement": "toAffineBytes/fromAffineBytes (LE and BE) round-trip for every finite curve point; with validity checks on, decoding accepts exactly canonical coordinates of curve points; toJacobianBytes/fromJacobianBytes round-trip all coordinates exactly.", "quantifier": "all byte strings, all points", "why_tests_cant": "adversarial inputs", "anchors": ["src/g.cpp:g1::fromAffineBytesBE,...,g2::toJacobianBytesLE"]}
{"id": "C35", "title": "Hash-to-curve output is always a valid group element", "statement": "For every field element input, mapToCurve returns a point on the curve (no input makes the map fail), and after cofactor clearing it lies in the order-r subgroup (G1 and G2).", "quantifier": "all field elements / all messages", "why_tests_cant": "a single exceptional input would let an attacker leave the group", "anchors": ["src/g.cpp:g1::mapToCurve,g1::swuMapG1,g1::isogenyMapG1,g1::clearCofactor,g2::mapToCurve,g2::swuMapG2,g2::isogenyMap,g2::clearCofactor"]}
{"id": "C36", "title": "SHA-256 is SHA-256 for every message and every chunking", "statement": "Feeding a message to the hasher in any sequence of update calls and taking the digest gives the FIPS 180-4 SHA-256 hash of the concatenation, for every message shorter than 2^61 bytes.", "quantifier": "all messages, all ways of splitting them into updates", "why_tests_cant": "padding boundaries and chunk splits are infinitely many", "anchors": ["src/sha256.cpp:sha256::update,transform,pad,revert,digest"]}
{"id": "C37", "title": "HMAC-SHA256 and HKDF conform to RFC 2104 / RFC 5869", "statement": "hkdf256_hmac, hkdf256_extract, hkdf256_expand and hkdf256_extract_expand compute the RFC functions for all keys, salts, infos, messages and all output lengths 1..8160, and fail for longer ones.", "quantifier": "all inputs and output lengths", "why_tests_cant": "unbounded lengths; block-boundary cases", "anchors": ["src/signatures.cpp:hkdf256_hmac,hkdf256_extract,hkdf256_expand,hkdf256_extract_expand"]}
{"id": "C38", "title": "expand_message_xmd conforms to RFC 9380", "statement": "xmd_sh256 returns the RFC 9380 expand_message_xmd(SHA-256) output for all messages, domain tags up to 255 bytes and output lengths up to 8160 bytes, and refuses longer tags and outputs.", "quantifier": "all messages, tags, lengths", "why_tests_cant": "unbounded", "anchors": ["src/signatures.cpp:xmd_sh256"]}
{"id": "C39", "title": "Secret key generation", "statement": "secret_key of a seed of at least 32 bytes returns, whenever it returns, the first nonzero HKDF-derived integer reduced mod r, hence a key in [1,r); shorter seeds give the zero key. The key differs from the EIP-2333 one, whose salt is hashed before the first attempt.", "quantifier": "all seeds", "why_tests_cant": "the retry loop and reduction must be right for all hash outputs", "anchors": ["src/signatures.cpp:secret_key"]}
{"id": "C40", "title": "Hardened child derivation", "statement": "derive_child_sk conforms to the EIP-2333 lamport construction with the library's key generation, for every parent key and index.", "quantifier": "all parent keys and indices", "why_tests_cant": "unbounded input space; 255-chunk lamport loop", "anchors": ["src/signatures.cpp:derive_child_sk,ikm_to_lamport_sk,parent_sk_to_lamport_pk"]}
{"id": "C41", "title": "Unhardened derivation commutes with taking the public key", "statement": "public_key(derive_child_sk_unhardened(sk,i)) equals derive_child_g1_unhardened(public_key(sk),i) for every key and index for which the scalar addition does not hit the carry defect; derive_child_g2_unhardened adds (hash of the G2 encoding and index)*G2 generator to every finite public key. The derived secret key belongs to the derived public key exactly if the addition of the nonce drops no carry.", "quantifier": "all secret keys and indices", "why_tests_cant": "a homomorphism property over 2^255 keys", "anchors": ["src/signatures.cpp:derive_child_sk_unhardened,derive_child_g1_unhardened,derive_child_g2_unhardened"]}
{"id": "C42", "title": "Key and signature aggregation", "statement": "aggregate_public_keys and aggregate_signatures return the group sum, independent of order and grouping and representation; aggregate_secret_keys returns the sum mod r when the carry defect is not hit, and then its public key equals the aggregate public key; for some valid key lists the aggregate secret key is wrong. Secret keys: each addition falls short by 0, 2^128, 2^192 or their sum (dropped carries), and the aggregate matches the aggregated public keys exactly if no carry is dropped (fewer than 2^61 keys).", "quantifier": "all lists of keys/signatures, all permutations", "why_tests_cant": "unbounded lists; permutation invariance", "anchors": ["src/signatures.cpp:aggregate_public_keys,aggregate_signatures,aggregate_secret_keys"]}
{"id": "C43", "title": "Secret key serialisation", "statement": "sk_from_bytes(sk_to_bytes(sk)) = sk for every sk < r (with and without reduction); without reduction any value >= r gives the zero key; with reduction it gives the value mod r.", "quantifier": "all 32-byte strings", "why_tests_cant": "2^256 inputs", "anchors": ["src/signatures.cpp:sk_to_bytes,sk_from_bytes"]}
{"id": "C44", "title": "Multi-pairing is the product of single pairings", "statement": "pairing::calculate on a list of pairs equals the product of calculate on each pair, hence does not depend on the order of the pairs; add_pair skips infinity and normalises representation.", "quantifier": "all lists of pairs, all orders", "why_tests_cant": "unbounded lists", "anchors": ["src/pairing.cpp:miller_loop,calculate,add_pair"]}
{"id": "C45", "title": "Final exponentiation is a group power", "statement": "final_exponentiation(f) = f^(3*(p^12-1)/r) for every f in Fp12 (0 for f=0), so the pairing value has order dividing r.", "quantifier": "all fp12 elements", "why_tests_cant": "addition chain and Frobenius shortcuts must be right for all elements", "anchors": ["src/pairing.cpp:final_exponentiation"]}
{"id": "C46", "title": "The pairing is bilinear and non-degenerate", "statement": "calculate([(aP,bQ)]) = calculate([(P,Q)])^(ab) for all P in G1, Q in G2 and all integers a,b; the pairing of the generators is not 1.", "quantifier": "all points of G1, G2, all integers", "why_tests_cant": "the core algebraic fact behind signature verification, not testable exhaustively", "anchors": ["src/pairing.cpp:doubling_step,addition_step,pre_compute,miller_loop,calculate"]}
{"id": "C47", "title": "Honest signatures verify", "statement": "verify(public_key(sk), m, sign(sk, m)) is true for every secret key and every message.", "quantifier": "all secret keys, all messages", "why_tests_cant": "2^255 keys times all messages", "anchors": ["src/signatures.cpp:public_key,sign,verify,fromMessage"]}
{"id": "C48", "title": "Verification accepts exactly one signature per key and message", "statement": "If verify(pk, m, sig1) and verify(pk, m, sig2) both hold for points in the subgroup then sig1 and sig2 are equal points; and verification never accepts for a public key or signature that is off the curve or outside the subgroup.", "quantifier": "all public keys, messages and signature points, including adversarial ones", "why_tests_cant": "universally quantified over adversarial inputs", "anchors": ["src/signatures.cpp:verify"]}
{"id": "C49", "title": "The identity public key", "statement": "verify (and pop_verify, aggregate_verify) do not reject the identity public key: with the identity as public key and the identity as signature every message verifies. Conversely with the identity public key only the identity signature verifies.", "quantifier": "all messages", "why_tests_cant": "users rely on KeyValidate-like behaviour for all messages", "anchors": ["src/signatures.cpp:verify,pop_verify,aggregate_verify"]}
{"id": "C50", "title": "Aggregate verification", "statement": "aggregate_verify returns false whenever the numbers of keys and messages differ, whenever duplicate checking is on and two messages coincide, and whenever some key or the signature is off-curve or outside the subgroup (with subgroup checking on); it accepts the aggregate of honest signatures on arbitrary message lists; its result does not depend on the order of the (key,message) pairs.", "quantifier": "all lists of keys and messages, all signatures", "why_tests_cant": "unbounded lists", "anchors": ["src/signatures.cpp:aggregate_verify"]}
{"id": "C51", "title": "Proof of possession and fast aggregate verification", "statement": "pop_verify accepts pop_prove(sk) for public_key(sk), for all sk; pop_fast_aggregate_verify accepts the aggregate of honest signatures on one message by any non-empty list of keys and rejects the empty list.", "quantifier": "all keys and key lists, all messages", "why_tests_cant": "unbounded lists", "anchors": ["src/signatures.cpp:pop_prove,pop_verify,pop_fast_aggregate_verify"]}
{"id": "C52", "title": "The moduli are prime", "statement": "The base-field modulus p and the group order r used by the code are prime numbers; the curve group E(Fp) has exactly (z-1)^2/3 * r elements of which the order-r subgroup is generated by g1::BASE.", "quantifier": "no quantifier for primality itself (a single huge number each); all curve points for the group order", "why_tests_cant": "primality of 381-bit numbers and point counts cannot be established by testing", "anchors": ["src/fp.cpp:fp::MODULUS,fp::Q", "src/g.cpp:g1::BASE,g1::cofactorEFF"]}
{"id": "C53", "title": "No out-of-bounds access, undefined shift or zero divisor in parametrised routines", "statement": "For every scalar width and list length reachable through the public API, all limb, byte, window, bucket and coefficient indices used by exp, rsh, weightedSum, bn_divn, inverse, SHA-256, xmd and the pairing precomputation are within their arrays, every variable shift amount is below the width of the word, and no divisor is zero; the exceptions (fp12::frobeniusMap with power >= 12, miller_loop on an empty list, hexToBytes on an empty string, scalar::multiply with too small a result) are identified.", "quantifier": "all limb counts, list lengths, buffer lengths", "why_tests_cant": "memory safety is a universal statement", "anchors": ["src/fp.cpp", "src/g.cpp", "src/pairing.cpp", "src/scalar.cpp", "src/sha256.cpp", "src/signatures.cpp"]}
{"id": "C54", "title": "Tower byte codecs", "statement": "fp2, fp6 and fp12 toBytesBE/LE of canonical elements have 96, 288 and 576 bytes, and fromBytesBE/LE with checking accepts exactly these encodings and returns the encoded element: encoding is a bijection between elements and accepted byte strings.", "quantifier": "all elements and all byte strings of the given lengths", "why_tests_cant": "unique decodability is universal over strings", "anchors": ["src/fp.cpp:fp2::fromBytesBE,fp2::toBytesBE,fp6::*,fp12::*"]}
{"id": "C55", "title": "Cofactor clearing", "statement": "g1::clearCofactor multiplies by 1-z and g2::clearCofactor by (z^2-z-1) + (z-1)psi + 2psi^2; for every curve point, in any representation, the result is killed by r and passes inCorrectSubgroup; on the subgroup itself clearing is injective.", "quantifier": "all points of E(Fp) and E'(Fp2), all representations", "why_tests_cant": "needs the structure of the full curve groups (including torsion points no random test hits)", "anchors": ["src/g.cpp:g1::clearCofactor,g2::clearCofactor"]}
{"id": "C56", "title": "The GLV and psi endomorphisms", "statement": "g1::glvEndomorphism and g2::psi/frobeniusMap are group endomorphisms of the whole curves with minimal polynomials t^2+t+1 and t^4-t^2+1, and act on the order-r subgroups as multiplication by z^2-1 and z; frobeniusMap(n) is psi iterated n times.", "quantifier": "all points, all n", "why_tests_cant": "statement about all points of the curves", "anchors": ["src/g.cpp:g1::glvEndomorphism,g2::psi,g2::frobeniusMap"]}
{"id": "C57", "title": "Message and tag lengths in hashing to the curve", "statement": "fromMessage, sign and verify hash the whole message if it has fewer than 2^31 bytes; the size is passed as a 32-bit int, so that from 2^31 bytes on the hash reads out of bounds and from 2^32 bytes on only the first (size - 2^32) bytes are hashed (appending 2^32 bytes to a message does not change its signature).  For tags of at most 255 bytes the result does not depend on uninitialised memory; for longer tags the error code of xmd_sh256 is ignored and the result depends on the uninitialised buffer only, not on the message.", "quantifier": "all messages and tags of any length, all buffer contents", "why_tests_cant": "needs messages of 2 GiB and more, and uninitialised memory", "anchors": ["src/signatures.cpp:fromMessage,xmd_sh256,sign,verify"]}
{"id": "C58", "title": "In-place operations with aliased arguments", "statement": "Every Assign method of fp2, fp6, fp12, g1 and g2, fp::sqrt and fp2::sqrt, the portable limb arithmetic and the Miller-loop steps give the documented value, computed from the operands as they were before the call, also when an argument is the object itself (x.multiplyAssign(x), p.addAssign(p), z = x = y), and change nothing else.  Exceptions: fp6::mulBy01Assign gives a wrong result if an argument is a reference to member c2 of the object, and addition_step if tp is r.", "quantifier": "all memories, all addresses that coincide or do not overlap", "why_tests_cant": "needs all operand values and all aliasing patterns; tests call few of them in place", "anchors": ["src/fp.cpp:*Assign", "src/g.cpp:*Assign", "src/arithmetic.cpp:_add.._square", "src/pairing.cpp:doubling_step,addition_step"]}
{"id": "C59", "title": "Class fp on its six limbs agrees with the field, whichever x86-64 code is used", "statement": "A call of any of the assembly routines leaves the same six limbs whatever the argument addresses, the other registers and the rest of memory; on all 384-bit operands it computes the corresponding primitive. The limb-level code of class fp (cmp, isZero, isOdd, div2 with carry-in, mul2 with returned carry, toMont/fromMont, sign, exp, sqrt, inverse, (de)serialization) over the assembly equals the value-level class, so that inverse returns the field inverse for every operand, canonical or not, without an out-of-range index. Over the portable arithmetic inverse() is wrong for some canonical operands.", "quantifier": "all six-limb operands, all machine states meeting the calling convention, both multipliers", "why_tests_cant": "tests use a few dozen random operands and one CPU; carries between limbs with all-ones limbs have probability 2^-64 per limb", "anchors": ["src/fp.cpp:fp::*", "include/bls12-381/fp.hpp:fp", "src/arithmetic.s"]}
{"id": "C60", "title": "Selection of the multiplier", "statement": "The ifunc resolver (and the non-ELF initialisation) always selects one of the two multipliers; the BMI2/ADX code is selected exactly if no environment entry starts with BLS_DISABLE_BMI2 and CPUID reports leaf 7 and EBX bits 8 and 19 of leaf 7; results do not depend on the choice.", "quantifier": "all environments, all CPUID answers, all operands", "why_tests_cant": "a test run sees one CPU and one environment", "anchors": ["src/arithmetic.cpp"]}
{"id": "C61", "title": "Ordering operators are total orders on representations", "statement": "operator<=> of fp, fp2, g1 and g2 are total orders whose equivalence is identity of all limbs. On canonical fp objects == is equality of field elements, but < is not their order (it compares Montgomery representatives). For points == is finer than equal(): every finite G1 point has another object that equal() identifies with it and == does not.", "quantifier": "all limb values; for the refutation all canonical coordinates with z != 0", "why_tests_cant": "transitivity and antisymmetry quantify over all pairs and triples", "anchors": ["include/bls12-381/fp.hpp:96-97,164", "include/bls12-381/g.hpp:67,134"]}
{"id": "C62", "title": "Yield callbacks", "statement": "weightedSum over n pairs with window width c calls the callback exactly (255/c+1)*(2*ceil((2^c-1)/256)+ceil(n/256)) times, stops at the first call that throws, and otherwise returns exactly what it returns without a callback; pairing::calculate calls back exactly once for 20 pairs or more and never for fewer; an empty callback changes nothing.", "quantifier": "all callbacks (state transformers that may throw), all points, scalars, pairs and lengths", "why_tests_cant": "quantifies over arbitrary callbacks and every call position at which one may throw", "anchors": ["src/g.cpp:472-531,1236-1295", "src/pairing.cpp:96-202"]}
{"id": "C63", "title": "Constants are those of the BLS12 family", "statement": "With z = -0xd201000000010000: order = z^4-z^2+1, modulus = (z-1)^2 order/3 + z, the Montgomery constants are R mod p, R^2 mod p and -1/p mod 2^64, the exponents are (p+1)/4, (p-1)/2, (p-3)/4, B = 4, B of the twist = 4(1+u), twoInv = 1/2, glvPhi1 a primitive cube root of unity, psiX^3 = psiY^2 = xi/conj xi, the effective cofactors are 1-z and -z, and the base points are the published generators.", "quantifier": "closed statements about every constant of the library", "why_tests_cant": "a wrong constant used only on a rare path is not exercised by tests", "anchors": ["include/bls12-381/fp.hpp", "src/fp.cpp", "src/g.cpp"]}
{"id": "C64", "title": "Memory allocation in key derivation", "statement": "hkdf256_hmac frees what it allocates and reports a failed allocation with -1. hkdf256_expand for 1..8160 bytes and secret_key and derive_child_sk, whichever allocations fail, either write through a null pointer or return with every block freed exactly once; with no failure the results are those of C37, C39, C40. Failures inside are not reported: expand returns success with uninitialised bytes, secret_key returns the uninitialised buffer reduced mod r (any key value is possible); a request for 0 bytes leaks two blocks.", "quantifier": "all patterns of allocation failures, all contents of uninitialised memory, all inputs and lengths", "why_tests_cant": "allocation failures do not occur in tests and each position of failure is a separate execution", "anchors": ["src/signatures.cpp:14-309"]}
{"id": "C65", "title": "Assembly: data-independent accesses inside the objects", "statement": "Every routine of arithmetic.s runs to its end from every state, and two runs with the same pointer arguments and stack pointer read and write the same addresses in the same order whatever the limbs, other registers and flags are. Every read is of a limb of an operand or of the routine's own stack words, every write is of a limb of the result or of those stack words.", "quantifier": "all pairs of machine states; no assumption on overlap of the objects", "why_tests_cant": "tests observe results, not access patterns, and an out-of-bounds read is invisible to them", "anchors": ["src/arithmetic.s", "include/bls12-381/arithmetic.hpp:42-66"]}
{"id": "C66", "title": "Scalar multiplication reveals the scalar through its operations", "statement": "g1::scale and g2::scale perform, in order from the lowest bit, one add for each one bit and one dbl for each bit up to the top one. The sequence of operations does not depend on the point, and determines the value of the scalar (an observer function exists); hence sign and public_key are not constant time in the secret key.", "quantifier": "all scalars of any number of limbs, all groups and points", "why_tests_cant": "tests compare results only", "anchors": ["include/bls12-381/scalar.hpp:330-362"]}
{"id": "C67", "title": "Signatures and keys as byte strings", "statement": "A compressed key string and signature string are accepted together exactly if they stand for a\u00b7G1 and a\u00b7H(m) for some a. Compressed honest keys and signatures are accepted (key not 0 mod r, hash not the identity). Two accepted compressed signature strings of finite points for the same key string and message differ at most by p in the x bits, and are equal if both have x < p; but for every message there is a signer with two accepted strings, and with infinity flags every string is accepted for every message. With the affine codecs (BE and LE, both Montgomery options, curve check on) honest strings are always accepted, the signature string is determined by key string and message, and the key string by the signature string.", "quantifier": "all key strings, signature strings, messages, secret keys", "why_tests_cant": "uniqueness of accepted strings ranges over all 96-byte strings", "anchors": ["src/g.cpp:56-142", "src/g.cpp:158-260", "src/g.cpp:769-852", "src/signatures.cpp:529-560"]}
{"id": "C68", "title": "Relations between the verification functions", "statement": "Sums, multiples and negatives of accepted signatures are accepted for the sums, multiples and negatives of the keys, and multiples by a factor prime to r are accepted only if the original is. Accepted aggregates can be concatenated by adding signatures, an accepted part can be taken out again, keys of the same message can be added; an aggregate accepted with and without one pair means the key or the hash is the identity. For individually valid keys pop_fast_aggregate_verify equals aggregate_verify on the repeated message; without that check it accepts more. For all signers and messages there are two individually rejected signatures whose aggregate is accepted.", "quantifier": "all keys, messages below 2^31 bytes, signatures with coordinates below p, lists of any length", "why_tests_cant": "tests check a few honest and a few wrong signatures; these are relations between results on arbitrary inputs", "anchors": ["src/signatures.cpp:538-674"]}
{"id": "C69", "title": "Unhardened derivation along paths, and what it reveals", "statement": "Deriving secret keys along a path of indices and deriving public keys along the same path lead to matching keys, if no intermediate key is the identity and no addition drops a carry. The parent secret key is the child secret key minus a nonce computable from the parent public key and the index; one child secret key gives all siblings. A signature for a key is converted by anyone into one for each unhardened child and back. Children of the identity key depend on how the identity is represented.", "quantifier": "all secret keys below r, all paths of any length, all public keys, messages and signatures", "why_tests_cant": "tests derive one or two levels of a few keys", "anchors": ["src/signatures.cpp:311-382"]}
{"id": "C70", "title": "Domain separation", "statement": "The string hashed first in expand_message_xmd determines message, tag (up to 255 bytes) and output length. If two calls of xmd_sh256 agree in the first 32 bytes of output then message, tag and length agree, or one of two explicit pairs of strings is a SHA-256 collision. A point accepted as a signature and as a proof of possession for the same non-identity key means that the two messages hash to the same point under the two different tags.", "quantifier": "all messages, tags, output lengths; all keys and points", "why_tests_cant": "tests cannot show the absence of coinciding inputs", "anchors": ["src/signatures.cpp:11-12", "src/signatures.cpp:444-494", "src/signatures.cpp:630-661"]}
{"id": "C71", "title": "Keys as identifiers", "statement": "Two secret keys have equal public keys (and, if not 0 mod r, equal compressed encodings) exactly if they agree mod r; the public key is the identity exactly for multiples of r. For a message that does not hash to the identity, signatures of two keys are equal, and the signature of one verifies under the other's public key, exactly if they agree mod r. Different four-word keys with the same public key exist.", "quantifier": "all four-word secret keys, all messages below 2^31 bytes", "why_tests_cant": "tests compare a handful of keys", "anchors": ["src/signatures.cpp:438-441", "src/signatures.cpp:529-560"]}
{"id": "C72", "title": "Secret keys that are not below r", "statement": "aggregate_secret_keys returns for every four-word first key and further keys below r, and uses the first key mod r; with a later key not below r it can throw. Unhardened derivation depends only on the key mod r (if not 0 mod r), although the bytes used by hardened derivation and serialisation distinguish all four-word keys.", "quantifier": "all four-word keys, all indices, lists of any length", "why_tests_cant": "tests use keys made by the library, which are below r", "anchors": ["src/signatures.cpp:311-331", "src/signatures.cpp:384-409", "include/bls12-381/scalar.hpp:99-125"]}
{"id": "C73", "title": "Proofs of possession and aggregates as byte strings", "statement": "For compressed strings: pop_verify, aggregate_verify and pop_fast_aggregate_verify after decoding accept exactly the strings that stand for points a*G1 and a*H (resp. the sums of such). Acceptance depends on the points, not on which of their strings is used. Compressed honest proofs and honest aggregates are accepted, provided the aggregate is not the identity: p + (-p) is returned as (0,1,0), whose compressed string is rejected (G2) or decoded to another point (G1). Key strings outside the subgroup are accepted by fast aggregate verification.", "quantifier": "all byte strings of the right length, all keys, all messages, lists of any length", "why_tests_cant": "all strings and all lists; the identity aggregate needs keys that cancel", "anchors": ["src/signatures.cpp:538-674", "src/g.cpp:98-225", "src/g.cpp:811-945"]}
{"id": "C74", "title": "Inversion reveals its argument, normalisation the Jacobian coordinates", "statement": "The branches taken by the loop of fp::inverse determine its argument: an observer function computes the argument from the sequence of branches, so two arguments give the same sequence only if they are equal. The loop makes between 381 and 762 iterations (none for 0). Consequently the result of g1::affine together with the branches of its inversion gives back the Jacobian coordinates of the point, and for public_key(sk) the exact coordinates left by scale.", "quantifier": "all 384-bit arguments; all points with canonical coordinates; all secret keys", "why_tests_cant": "tests compare results, not executions", "anchors": ["src/fp.cpp:221-323", "src/g.cpp:315-330", "src/signatures.cpp:438-441"]}
{"id": "C75", "title": "The functions of the signature scheme return for every point", "statement": "verify and sign return (no exception, no access outside an array) exactly when the length of the message, reduced to 32 bits, is below 2^31; the public key and signature may be arbitrary objects: off the curve, outside the subgroup, with unreduced coordinates. aggregate_verify (lists of any lengths), pop_fast_aggregate_verify, pop_prove, pop_verify and pairing::calculate always return under the same condition on the messages.", "quantifier": "all points with arbitrary coordinates, all byte strings of any length, all lists", "why_tests_cant": "the set of malformed points is not enumerable; the length condition first bites at 2^31 bytes", "anchors": ["src/signatures.cpp:497-674", "src/pairing.cpp:62-131"]}
{"id": "C76", "title": "Field routines on operands that are not reduced", "statement": "For arbitrary six-limb operands (not only canonical ones) the x86-64 routines store an integer that is congruent to the mathematical result exactly when: x+y < 2^384 (add), 2x < 2^384 (double), y-x <= p (subtract), x <= p (negate), and for the multipliers when the quotient t of x*y+m*p by 2^384 (m the Montgomery multiplier) is below 2^384; in particular whenever x*y <= 2^384*(2^384-p). The stored integer is below p exactly when (x+y) mod 2^384 < 2p, -p <= x-y < p, 0 < x <= p, t mod 2^384 < 2p respectively; operands up to 3p always give a canonical product. For x=y=2^384-1 the product is wrong. The header's rule 'at most ONE _ladd/_lsubtract/_ldouble before _multiply' is right for _ladd and _ldouble, but after _lsubtract of canonical a, b the product with a canonical c is right exactly when b <= a or c = 0.", "quantifier": "all machine states whose operand pointers designate six 64-bit words, overlapping or not", "why_tests_cant": "the lost carries need operands near 2^384; the exact boundary is a statement about all pairs of 384-bit integers", "anchors": ["src/arithmetic.s:7-1308", "src/arithmetic.cpp:119-128", "include/bls12-381/arithmetic.hpp:21-29"]}
{"id": "C77", "title": "SHA-256, HMAC and HKDF access memory and branch independently of the data", "statement": "Two executions of the sha256 class (any sequence of update calls followed by digest), of hkdf256_hmac or of hkdf256_expand whose arguments have the same lengths access the same array elements in the same order and take the same branches, whatever the contents of the inputs, keys and uninitialised buffers; the results are SHA-256, HMAC and HKDF-Expand of the inputs. The log of a hash of n bytes contains exactly one read of each message byte in order, one write of each digest byte and n+2 branches.", "quantifier": "all messages, keys, infos of any lengths, all ways of cutting the message, all contents of uninitialised memory", "why_tests_cant": "a test sees results, not addresses; independence is a relation between all pairs of executions", "anchors": ["src/sha256.cpp:21-178", "src/signatures.cpp:14-147"]}
{"id": "C78", "title": "Reduction modulo the group order reveals the quotient", "statement": "The branches of bn_divn_safe(k, fp::Q) depend on k: the while loop for the first quotient digit runs floor(k / (r 2^(64j))) times for k of 4+j limbs, so for four-limb numbers two executions take the same branches exactly if floor(k/r) is the same. aggregate_secret_keys therefore shows for every key whether the running sum reaches r, and derive_child_sk_unhardened shows whether the parent secret key is at least r - nonce, where the nonce is computable from the public key and the index.", "quantifier": "all numbers of at least four limbs; all lists of canonical keys without dropped carries; all secret keys below r and all indices", "why_tests_cant": "tests compare results, not executions; the claim relates all pairs of executions", "anchors": ["src/scalar.cpp:236-339", "src/signatures.cpp:311-331", "src/signatures.cpp:384-404"]}
{"id": "C79", "title": "How many inputs the reductions and the hash to the curve send to the same value", "statement": "fp::modPrime on 64 bytes sends exactly floor(2^512/p) or one more strings to every field element, the reduction of the 48 bytes of key generation exactly floor(2^384/r) or one more to every residue. The reduction of 32 bytes (sk_from_bytes with modOrder, the nonce of unhardened derivation) sends three strings to the residues below 2^256 mod r and two to the others, so its results are not close to uniform. swuMapG1 and swuMapG2 send at most four inputs to a point (six for the abscissa B/(ZA)) and are not injective; g1::mapToCurve sends at most 47p/r inputs to a point, g2::mapToCurve at most 15p^2/r, and the hash to G2 at most 15*2^2048/r expansions, so messages with pairwise different expansions hash to the same point at most that often.", "quantifier": "all values of the reductions; all points of the curves; all finite sets of inputs", "why_tests_cant": "the number of preimages ranges over sets of 2^256 to 2^2048 inputs", "anchors": ["include/bls12-381/scalar.hpp:241-260", "src/scalar.cpp:236-339", "src/signatures.cpp:202-231", "src/signatures.cpp:411-436", "src/g.cpp:537-607", "src/g.cpp:1301-1385", "src/signatures.cpp:497-528"]}
{"id": "C80", "title": "Coincidences of keys and signatures are hash collisions", "statement": "If two seeds of at least 32 bytes give the same secret key, two (parent, index) pairs the same hardened child, two indices the same unhardened child of a public key, or two messages are accepted with the same signature under a key other than the identity, then the arguments are equal, or two different strings hashed at the same place of the two computations (two for HMAC and for the expansion, four for key generation, ten for derivation) have the same SHA-256, or the last reduction (modulo r, respectively the map from the expansion to the curve) sends two different explicit values to one. A point that is both a signature and a proof of possession for one key always is such a coincidence. hkdf256_hmac identifies texts and padded keys up to collisions; keys that differ only in trailing zeros give the same tags.", "quantifier": "all seeds, keys, indices, messages, tags and points meeting the preconditions", "why_tests_cant": "the claim is a reduction: it turns any coincidence, which no test will find, into an explicit collision", "anchors": ["src/signatures.cpp:14-63", "src/signatures.cpp:65-172", "src/signatures.cpp:239-309", "src/signatures.cpp:332-356", "src/signatures.cpp:444-556", "src/signatures.cpp:630-660"]}
{"id": "C81", "title": "The library on limbs with the machine code computes what the model on integers computes", "statement": "With every field element stored as six 64-bit limbs and every field operation carried out by the interpreted instructions of arithmetic.s (either multiplier), each operation of fp2, fp6, fp12, g1 and g2 (arithmetic, comparisons, square roots, inverses, Frobenius maps, encodings and decodings), the maps to the curves, the Miller loop, the final exponentiation, calculate, weightedSum and every function of signatures.cpp that touches points gives the limbs of the result, the same flag, the same bytes or the same failure as the model on integers, for all limbs, reduced or not. Hence with the multiplier selected at load time the verdict on any public key, message and signature strings is the one of the specification, honest signatures and proofs verify, and the limbs of keys, signatures and pairings do not depend on the CPU. With the portable arithmetic this fails: two representations of the generator are encoded differently.", "quantifier": "all limbs, byte strings, scalars, messages and lists; both multipliers; all environments and cpuid answers", "why_tests_cant": "a test runs one CPU on a few operands; the claim covers all 384-bit operands of every operation at once and both multipliers", "anchors": ["src/arithmetic.s:1-1311", "src/fp.cpp:1-1586", "src/g.cpp:1-1627", "src/pairing.cpp:1-201", "src/signatures.cpp:174-677", "include/bls12-381/scalar.hpp:241-280"]}
{"id": "C82", "title": "The augmented scheme: each signer appends its own public key to the message", "statement": "The test suite builds the message-augmentation scheme by signing the message followed by pk.toAffineBytesBE(). The pair of message and public key (as a point, whatever its Jacobian representation) can be read off the augmented message. The aggregate of honest signatures passes aggregate_verify with the duplicate check exactly if no signer signs the same message twice, signers being told apart by their secret keys modulo r; without the check it always passes. Without augmentation anyone can choose a key k and register the rogue key kG - pk, and sign(k, m) then passes for both keys and the message m. With augmentation a signature passes for pk and the rogue key exactly if it is k H' + a (H - H') for the two hashes, so it contains the honest signer's multiple of H - H'.", "quantifier": "all keys, points, representations, messages short enough, lists of signers", "why_tests_cant": "the test runs one message and two seeds; the claim is an equivalence for all lists and a reduction for all signatures", "anchors": ["test/unittests.cpp:1963-1990", "src/signatures.cpp:444-628", "src/g.cpp:154-171"]}
{"id": "C83", "title": "When the portable build and the x86-64 build compute the same", "statement": "For canonical field elements the portable add, double, subtract and negate return the same six limbs as the assembly exactly when no carry or borrow meets an all-ones limb of the second operand among its five lower limbs; multiply always agrees; square agrees whenever none of the ten doubled limb products is within 3*2^64 of 2^128. The operations without reduction agree under the same condition on any six limbs. The second operands for which some first operand gives a different sum are exactly those with an all-ones limb among limbs 1 to 4 above a non-zero limb; the same ones are bad for differences. There are at most 4*2^320 of them among the 2^384 six-limb numbers.", "quantifier": "all operands, both assembly multipliers, all finite sets of second operands", "why_tests_cant": "a random operand hits an all-ones limb with probability about 5/2^64, so no random comparison of the two builds can see the difference or show where it ends", "anchors": ["src/arithmetic.cpp:12-144", "src/arithmetic.cpp:197-428", "src/arithmetic.s", "include/bls12-381/arithmetic.hpp"]}
{"id": "C84", "title": "Threshold signing: weighted sums of partial signatures", "statement": "For shares k_i, four-word weights w_i and a key k: the weightedSum of the public keys of the shares equals public_key(k) exactly if sum w_i k_i = k modulo the group order r, and the weightedSum of the partial signatures sign(k_i, m) is accepted for public_key(k), and equals sign(k, m), exactly then or if m hashes to the identity. For arbitrary keys the weightedSum of accepted signatures is accepted for the weightedSum of the keys; if exactly one signature (a point of the subgroup) is not accepted for its key, the sum is accepted exactly if its weight is 0 modulo r. For any list of indices that are distinct modulo r there are weights, depending only on the indices, such that for every polynomial with at most as many coefficients the shares f(x_i) combine to the public key and the signature of f(0). With one more coefficient no weights do: there is a polynomial with f(0) = 1 whose shares at the given non-zero indices combine to a rejected signature whatever the weights are. Such shares say nothing about the key: for any shares at distinct non-zero indices and any key there is exactly one polynomial modulo r with one more coefficient that has these shares and this value at 0.", "quantifier": "all lists of shares, weights, indices, polynomials, keys and messages", "why_tests_cant": "the suite has no threshold test; an equivalence over all shares and weights and the existence of weights for every set of indices cannot be sampled", "anchors": ["src/g.cpp:472-531", "src/g.cpp:1236-1295", "src/signatures.cpp:438-441", "src/signatures.cpp:529-560"]}
{"id": "C85", "title": "Verifying many signatures at once with weights", "statement": "The caller multiplies each public key by its weight with scale, sums the weighted signatures with weightedSum and calls aggregate_verify once. For keys and signatures in the subgroups: if all signatures are valid the batch passes whatever the weights are. If some signature is not valid, then whatever the other items and weights are there is exactly one residue of its weight modulo the group order for which the batch passes, so at most one weight below the order. With equal weights two wrong signatures can pass: for any two keys and messages there are wrong signatures that pass exactly if the two weights are congruent modulo the order. Signatures on the curve that are not checked to be in the subgroup break the argument: for every key and message there is one that verify rejects and the batch accepts exactly if the weight is a multiple of 13.", "quantifier": "all lists of items, all weights, all keys and messages", "why_tests_cant": "a wrong batch passes for one weight in 2^255; only a proof can tell this from one in 13, and no test varies the weights", "anchors": ["src/g.cpp:472-531", "src/g.cpp:1236-1295", "src/signatures.cpp:582-628"]}
