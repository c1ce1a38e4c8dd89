{
 "claims": [
  {
   "property": "C01",
   "status": "proved",
   "theorems": [
    "C01_add",
    "C01_double",
    "C01_subtract",
    "C01_negate"
   ],
   "note": "interpreted assembly, all memories and aliasings; __negate is called only for x <> 0 (arithmetic.cpp:119-128)"
  },
  {
   "property": "C02",
   "status": "proved",
   "theorems": [
    "C02_multiply"
   ],
   "note": "both multipliers; square is the same call with y = x"
  },
  {
   "property": "C03",
   "status": "proved",
   "theorems": [
    "C03_same_product"
   ],
   "note": "no range condition needed"
  },
  {
   "property": "C04",
   "status": "proved",
   "theorems": [
    "C04_below_4p",
    "C04_canonical_below_4p_refuted"
   ],
   "note": "congruent and below 2p for operands below 4p; canonicity refuted by witness"
  },
  {
   "property": "C05",
   "status": "proved",
   "theorems": [
    "C05_madd",
    "C05_madd_refuted",
    "C05_add64",
    "C05_sub64",
    "C05_mul64",
    "C05_documented_contract_refuted"
   ],
   "note": "The documented carry contract is false when y = 2^64-1 meets a carry (C05_documented_contract_refuted); the exact condition is proved."
  },
  {
   "property": "C06",
   "status": "proved",
   "theorems": [
    "C06_add",
    "C06_double",
    "C06_subtract",
    "C06_negate",
    "C06_unreduced_iff",
    "C06_add_iff",
    "C06_double_iff",
    "C06_subtract_iff",
    "C06_negate_iff",
    "C06_no_all_ones_limb",
    "C06_add_refuted",
    "C06_double_refuted",
    "C06_subtract_refuted",
    "C06_negate_refuted"
   ],
   "note": "Right if and only if no all-ones limb of the second operand meets a carry (borrow); the unconditional claim is refuted."
  },
  {
   "property": "C07",
   "status": "proved",
   "theorems": [
    "C07_multiply",
    "C07_multiply_montgomery",
    "C07_square_refuted",
    "C07_square",
    "C07_square_small_limbs"
   ],
   "note": "_multiply correct for every pair; _square correct unless one of ten doubled limb products is, modulo 2^128, within 3*2^64 of 2^128, and wrong for some canonical inputs (refuted with a witness)."
  },
  {
   "property": "C08",
   "status": "proved",
   "theorems": [
    "C08_montgomery_form",
    "C08_bijection",
    "C08_conversions_inverse",
    "C08_toMont_any",
    "C08_fromMont_any",
    "C08_isValid"
   ],
   "note": ""
  },
  {
   "property": "C09",
   "status": "proved",
   "theorems": [
    "C09_decode_BE",
    "C09_decode_LE",
    "C09_encode",
    "C09_roundtrip",
    "C09_unique_encoding",
    "C09_raw_roundtrip"
   ],
   "note": ""
  },
  {
   "property": "C10",
   "status": "proved",
   "theorems": [
    "C10_inverse",
    "C10_inverse_wide",
    "C10_loop_bound",
    "C10_no_overflow"
   ],
   "note": ""
  },
  {
   "property": "C11",
   "status": "proved",
   "theorems": [
    "C11_exp"
   ],
   "note": ""
  },
  {
   "property": "C12",
   "status": "proved",
   "theorems": [
    "C12_sqrt",
    "C12_isQuadraticNonResidue"
   ],
   "note": ""
  },
  {
   "property": "C13",
   "status": "proved",
   "theorems": [
    "C13_lexicographically_largest",
    "C13_exactly_one_largest",
    "C13_sign",
    "C13_sign_negation",
    "C13_fp2_lexicographically_largest",
    "C13_fp2_exactly_one_largest",
    "C13_fp2_sign",
    "C13_fp2_sign_negation"
   ],
   "note": "fp and fp2"
  },
  {
   "property": "C14",
   "status": "proved",
   "theorems": [
    "C14_division",
    "C14_modPrime",
    "C14_large_divisor_refuted",
    "C14_large_divisor",
    "C14_zero_divisor",
    "C14_first_loop",
    "C14_zero_top_limb"
   ],
   "note": "Any limb counts, any divisor with non-zero top limb: right, or (top bit set, same limb count, top dividend limb below 2) out of bounds."
  },
  {
   "property": "C15",
   "status": "proved",
   "theorems": [
    "C15_add_exact",
    "C15_add_overflow",
    "C15_add_iff",
    "C15_add_too_short",
    "C15_add_refuted",
    "C15_multiply",
    "C15_multiply_iff",
    "C15_multiply_by_word",
    "C15_multiply_refuted",
    "C15_multiply_bounds_refuted"
   ],
   "note": "if-and-only-if conditions proved, unconditional claims refuted"
  },
  {
   "property": "C16",
   "status": "proved",
   "theorems": [
    "C16_bytes_round_trip",
    "C16_limbs_round_trip",
    "C16_bytes_value",
    "C16_limbs_value",
    "C16_cmp_equal",
    "C16_bitLength",
    "C16_bit",
    "C16_rsh"
   ],
   "note": ""
  },
  {
   "property": "C17",
   "status": "proved",
   "theorems": [
    "C17_digest_string",
    "C17_array",
    "C17_array_junk",
    "C17_round_trip",
    "C17_output_is_hex",
    "C17_decode_prefixed",
    "C17_decode_plain",
    "C17_empty_string_refuted"
   ],
   "note": "hexToBytes on the empty string reads past the end (refuted)"
  },
  {
   "property": "C18",
   "status": "proved",
   "theorems": [
    "C18_Fp2_field",
    "C18_representation",
    "C18_add",
    "C18_sub",
    "C18_neg",
    "C18_double",
    "C18_conjugate",
    "C18_mul",
    "C18_square",
    "C18_mulByNonResidue",
    "C18_mulByB",
    "C18_mulByFq",
    "C18_inverse",
    "C18_exp",
    "C18_comparisons",
    "C18_constants"
   ],
   "note": ""
  },
  {
   "property": "C19",
   "status": "proved",
   "theorems": [
    "C19_sqrt",
    "C19_isQuadraticNonResidue"
   ],
   "note": ""
  },
  {
   "property": "C20",
   "status": "proved",
   "theorems": [
    "C20_Fp6_field",
    "C20_representation",
    "C20_add",
    "C20_sub",
    "C20_neg",
    "C20_double",
    "C20_mul",
    "C20_square",
    "C20_mulBy01",
    "C20_mulBy1",
    "C20_mulByNonResidue",
    "C20_mulByBaseField",
    "C20_inverse",
    "C20_exp",
    "C20_comparisons",
    "C20_constants"
   ],
   "note": ""
  },
  {
   "property": "C21",
   "status": "proved",
   "theorems": [
    "C21_Fp12_field",
    "C21_representation",
    "C21_add",
    "C21_sub",
    "C21_neg",
    "C21_double",
    "C21_conjugate",
    "C21_mul",
    "C21_square",
    "C21_mulBy014",
    "C21_inverse",
    "C21_exp",
    "C21_comparisons",
    "C21_constants",
    "C21_isGtValid"
   ],
   "note": ""
  },
  {
   "property": "C22",
   "status": "proved",
   "theorems": [
    "C22_fp2_frobenius",
    "C22_fp6_frobeniusMapAssign",
    "C22_fp6_frobeniusMap",
    "C22_fp12_frobeniusMapAssign",
    "C22_fp12_frobeniusMap",
    "C22_fp6_frobeniusMap3_refuted",
    "C22_fp12_frobeniusMap3_refuted",
    "C22_fp12_frobenius_out_of_bounds"
   ],
   "note": "value-returning frobeniusMap(3) refuted; fp12 powers >= 12 are out of bounds"
  },
  {
   "property": "C23",
   "status": "proved",
   "theorems": [
    "C23_cyclotomic_square",
    "C23_cyclotomic_exp",
    "C23_easy_part",
    "C23_conjugate_is_inverse",
    "C23_outside_subgroup"
   ],
   "note": ""
  },
  {
   "property": "C24",
   "status": "proved",
   "theorems": [
    "C24_add",
    "C24_dbl",
    "C24_neg",
    "C24_sub",
    "C24_zero"
   ],
   "note": "all Jacobian representations; the model passes values, so aliasing (p.addAssign(p)) is the case q = p"
  },
  {
   "property": "C25",
   "status": "proved",
   "theorems": [
    "C25_add",
    "C25_dbl",
    "C25_neg",
    "C25_sub",
    "C25_zero"
   ],
   "note": "as C24 over Fp2"
  },
  {
   "property": "C26",
   "status": "proved",
   "theorems": [
    "C26_denotation_g1",
    "C26_denotation_g2",
    "C26_equal_g1",
    "C26_equal_g2",
    "C26_isZero_g1",
    "C26_isZero_g2",
    "C26_affine_g1",
    "C26_affine_g2",
    "C26_affine_infinity",
    "C26_isOnCurve_g1",
    "C26_isOnCurve_g2",
    "C26_isOnCurve_z0"
   ],
   "note": ""
  },
  {
   "property": "C27",
   "status": "proved",
   "theorems": [
    "C27_spec_E1",
    "C27_spec_E2",
    "C27_g1",
    "C27_g2",
    "C27_membership"
   ],
   "note": "chord-and-tangent is proved associative from scratch; code side up to equal()"
  },
  {
   "property": "C28",
   "status": "proved",
   "theorems": [
    "C28_scale_g1",
    "C28_scale_g2",
    "C28_zmul"
   ],
   "note": "any limb count"
  },
  {
   "property": "C29",
   "status": "proved",
   "theorems": [
    "C29_weightedSum_g1",
    "C29_weightedSum_g2"
   ],
   "note": "list sizes below 2^64 (size_t); the callback is C62"
  },
  {
   "property": "C30",
   "status": "proved",
   "theorems": [
    "C30_inCorrectSubgroup",
    "C30_multiples"
   ],
   "note": "for every representation of every point of E(Fp)"
  },
  {
   "property": "C31",
   "status": "proved",
   "theorems": [
    "C31_inCorrectSubgroup",
    "C31_multiples"
   ],
   "note": "full equivalence, stronger than the property statement"
  },
  {
   "property": "C32",
   "status": "proved",
   "theorems": [
    "C32_g1_format",
    "C32_g2_format",
    "C32_g1_roundtrip",
    "C32_g2_roundtrip",
    "C32_g1_injective",
    "C32_g2_injective",
    "C32_g1_infinity_refuted",
    "C32_g2_infinity_refuted",
    "C32_infinity_000"
   ],
   "note": "finite points; the encodings of zero() are refuted"
  },
  {
   "property": "C33",
   "status": "proved",
   "theorems": [
    "C33_g1_accepts",
    "C33_g1_rejects",
    "C33_g2_accepts",
    "C33_g2_rejects",
    "C33_g1_canonical",
    "C33_g2_canonical",
    "C33_g1_unique_refuted",
    "C33_infinity_junk_refuted"
   ],
   "note": "complete description of acceptance; uniqueness refuted"
  },
  {
   "property": "C34",
   "status": "proved",
   "theorems": [
    "C34_g1_jacobian_BE",
    "C34_g1_jacobian_LE",
    "C34_g2_jacobian_BE",
    "C34_g2_jacobian_LE",
    "C34_g1_affine_BE",
    "C34_g1_affine_LE",
    "C34_g2_affine_BE",
    "C34_g2_affine_LE"
   ],
   "note": "both settings of the Montgomery option"
  },
  {
   "property": "C35",
   "status": "proved",
   "theorems": [
    "C35_spec_total",
    "C35_swuMapG1",
    "C35_swuMapG2",
    "C35_g2_mapToCurve",
    "C35_g2_mapToCurve_valid",
    "C35_g1_mapToCurve",
    "C35_g1_mapToCurve_onCurve",
    "C35_g1_mapToCurve_refuted"
   ],
   "note": "G2: for all field elements.  G1: for all field elements except those that SSWU sends to the kernel of the isogeny; on exactly those the code returns (0,0,1), off the curve (RFC 9380 asks for infinity): C35_g1_mapToCurve_refuted exhibits one."
  },
  {
   "property": "C36",
   "status": "proved",
   "theorems": [
    "C36_sha256",
    "C36_chunking",
    "C36_output",
    "C36_digest_twice_refuted"
   ],
   "note": "against FIPS 180-4 with the constants derived from the primes; refuted: a second digest call on the same object does not return the same hash"
  },
  {
   "property": "C37",
   "status": "proved",
   "theorems": [
    "C37_hmac",
    "C37_extract",
    "C37_expand",
    "C37_expand_too_long",
    "C37_extract_expand",
    "C37_expand_zero_refuted"
   ],
   "note": "refuted: requesting 0 bytes returns failure although RFC 5869 allows it / see theorem"
  },
  {
   "property": "C38",
   "status": "proved",
   "theorems": [
    "C38_xmd",
    "C38_limits",
    "C38_output",
    "C38_negative_length_refuted"
   ],
   "note": "refuted: a negative length (message of 2^31 bytes or more cast to int) reads out of bounds"
  },
  {
   "property": "C39",
   "status": "proved",
   "theorems": [
    "C39_short_seed",
    "C39_keygen",
    "C39_range",
    "C39_eip2333_refuted"
   ],
   "note": "loop modelled with fuel: the theorem describes the result for every fuel; refuted: the result is not the EIP-2333 / later-draft key, which hashes the salt before the first attempt"
  },
  {
   "property": "C40",
   "status": "proved",
   "theorems": [
    "C40_lamport",
    "C40_derive_child"
   ],
   "note": "the final key generation is the library secret_key (C39)"
  },
  {
   "property": "C41",
   "status": "proved",
   "theorems": [
    "C41_commutes",
    "C41_g1",
    "C41_g2",
    "C41_exact"
   ],
   "note": "the proviso is that the scalar addition drops no carry; the G2 variant adds the nonce of the G2 encoding times the G2 generator C41_exact: the condition is also necessary."
  },
  {
   "property": "C42",
   "status": "proved",
   "theorems": [
    "C42_public_keys",
    "C42_signatures",
    "C42_permutation",
    "C42_permutation_sig",
    "C42_grouping",
    "C42_secret_keys",
    "C42_no_ones",
    "C42_homomorphism",
    "C42_secret_keys_refuted",
    "C42_deficit",
    "C42_exact",
    "C42_order_refuted",
    "C42_sign",
    "C42_selected_keys",
    "C42_selected_signatures"
   ],
   "note": "refuted: two valid keys whose aggregate is wrong because bn_add drops a carry C42_exact: the condition is also necessary; C42_deficit: the exact error."
  },
  {
   "property": "C43",
   "status": "proved",
   "theorems": [
    "C43_to_bytes",
    "C43_from_bytes_mod",
    "C43_from_bytes",
    "C43_roundtrip"
   ],
   "note": ""
  },
  {
   "property": "C44",
   "status": "proved",
   "theorems": [
    "C44_value",
    "C44_value_direct",
    "C44_product",
    "C44_permutation",
    "C44_representation",
    "C44_add_pair_infinity",
    "C44_add_pair_finite",
    "C44_empty"
   ],
   "note": "For lists built by add_pair (or given in affine form) from curve points, second components of order dividing r: the value is the product of the reduced ate pairings of SpecPairing. The yield callback is not modelled."
  },
  {
   "property": "C45",
   "status": "proved",
   "theorems": [
    "C45_power",
    "C45_zero",
    "C45_order",
    "C45_multiplicative",
    "C45_subfield",
    "C45_pairing_order"
   ],
   "note": ""
  },
  {
   "property": "C46",
   "status": "proved",
   "theorems": [
    "C46_bilinear",
    "C46_scale",
    "C46_additive",
    "C46_generators",
    "C46_nondegenerate"
   ],
   "note": ""
  },
  {
   "property": "C47",
   "status": "proved",
   "theorems": [
    "C47_spec_total",
    "C47_fromMessage",
    "C47_sign",
    "C47_honest"
   ],
   "note": "for messages shorter than 2^31 bytes (see C57)"
  },
  {
   "property": "C48",
   "status": "proved",
   "theorems": [
    "C48_accepts",
    "C48_equation",
    "C48_unique",
    "C48_checked",
    "C48_representation",
    "C48_message_binding",
    "C48_key_binding"
   ],
   "note": "exact characterisation of the accepted signatures, uniqueness, binding"
  },
  {
   "property": "C49",
   "status": "proved",
   "theorems": [
    "C49_identity",
    "C49_identity_verifies",
    "C49_identity_signature",
    "C49_pop_identity",
    "C49_aggregate_identity"
   ],
   "note": ""
  },
  {
   "property": "C50",
   "status": "proved",
   "theorems": [
    "C50_accepts",
    "C50_rejects_length",
    "C50_rejects_duplicates",
    "C50_checked",
    "C50_honest",
    "C50_permutation",
    "C50_empty",
    "C50_single"
   ],
   "note": ""
  },
  {
   "property": "C51",
   "status": "proved",
   "theorems": [
    "C51_pop_accepts",
    "C51_pop_honest",
    "C51_pop_unique",
    "C51_pop_message_injective",
    "C51_fast_empty",
    "C51_fast_accepts",
    "C51_fast_honest",
    "C51_individual_keys_refuted",
    "C51_rogue_key"
   ],
   "note": "C51_individual_keys_refuted: fast aggregate verification checks only the sum of the keys"
  },
  {
   "property": "C52",
   "status": "proved",
   "theorems": [
    "C52_modulus_prime",
    "C52_order_prime",
    "C52_base_order",
    "C52_E1_order",
    "C52_E2_order"
   ],
   "note": "Pocklington certificates; both curve groups counted by explicit independent points and a Hasse-free upper bound"
  },
  {
   "property": "C53",
   "status": "proved",
   "theorems": [
    "C53_bytes",
    "C53_from_bytes",
    "C53_add",
    "C53_multiply",
    "C53_multiply_bounds_refuted",
    "C53_compare",
    "C53_rsh",
    "C53_exp",
    "C53_scale",
    "C53_weightedSum_g1",
    "C53_weightedSum_g2",
    "C53_division",
    "C53_division_large",
    "C53_power",
    "C53_inverse",
    "C53_sha256",
    "C53_hmac",
    "C53_expand",
    "C53_xmd",
    "C53_pre_compute",
    "C53_miller_loop",
    "C53_miller_loop_empty_refuted",
    "C53_frobenius6",
    "C53_frobenius12",
    "C53_bytesToHex",
    "C53_hexToBytes",
    "C53_hexToBytes_refuted",
    "C53_hexToBytesN",
    "C53_hexToBytesN_value"
   ],
   "note": "array-level model with checked accesses; the exceptions named in the property are the _refuted theorems and the iff theorems"
  },
  {
   "property": "C54",
   "status": "proved",
   "theorems": [
    "C54_fp2_codec",
    "C54_fp6_codec",
    "C54_fp12_codec",
    "C54_encodings_exist"
   ],
   "note": ""
  },
  {
   "property": "C55",
   "status": "proved",
   "theorems": [
    "C55_clearCofactor_g2",
    "C55_clearCofactor_heff1",
    "C55_clearCofactor_g1",
    "C55_clearCofactor_g1_test",
    "C55_clearCofactor_g2_test",
    "C55_clearCofactor_injective"
   ],
   "note": ""
  },
  {
   "property": "C56",
   "status": "proved",
   "theorems": [
    "C56_glv",
    "C56_glv_hom",
    "C56_psi",
    "C56_psi_hom",
    "C56_frobeniusMap"
   ],
   "note": ""
  },
  {
   "property": "C57",
   "status": "proved",
   "theorems": [
    "C57_out_of_bounds_refuted",
    "C57_prefix_refuted",
    "C57_same_signature_refuted",
    "C57_long_tag_refuted",
    "C57_uninitialised"
   ],
   "note": "the refuted theorems state the truncation of the length and the ignored error code"
  },
  {
   "property": "C58",
   "status": "proved",
   "theorems": [
    "C58_portable_add",
    "C58_portable_double",
    "C58_portable_subtract",
    "C58_portable_negate",
    "C58_portable_multiply",
    "C58_portable_square",
    "C58_fp2_add",
    "C58_fp2_subtract",
    "C58_fp2_multiply",
    "C58_fp2_unary",
    "C58_fp_sqrt",
    "C58_fp2_sqrt",
    "C58_fp6_add",
    "C58_fp6_subtract",
    "C58_fp6_multiply",
    "C58_fp6_unary",
    "C58_fp6_mulBy01",
    "C58_fp6_mulBy01_c2_refuted",
    "C58_fp12_add",
    "C58_fp12_subtract",
    "C58_fp12_multiply",
    "C58_fp12_unary",
    "C58_fp12_frobenius",
    "C58_fp12_mulBy014",
    "C58_point_add",
    "C58_point_double",
    "C58_point_subtract",
    "C58_doubling_step",
    "C58_addition_step",
    "C58_addition_step_same_refuted"
   ],
   "note": "in-place operations on memories; two aliasing patterns refuted"
  },
  {
   "property": "C59",
   "status": "proved",
   "theorems": [
    "C59_assembly_calls",
    "C59_assembly_calls1",
    "C59_x86_primitives",
    "C59_predicates",
    "C59_div2",
    "C59_mul2",
    "C59_conversions",
    "C59_exp_sqrt",
    "C59_bytes",
    "C59_inverse",
    "C59_inverse_portable_refuted"
   ],
   "note": "portable inverse refuted by a witness"
  },
  {
   "property": "C60",
   "status": "proved",
   "theorems": [
    "C60_always_a_multiplier",
    "C60_mul_ex_iff",
    "C60_baseline",
    "C60_summary",
    "C60_same_results"
   ],
   "note": ""
  },
  {
   "property": "C61",
   "status": "proved",
   "theorems": [
    "C61_total_orders",
    "C61_fp_equality",
    "C61_fp_order_refuted",
    "C61_g1_equality_refuted"
   ],
   "note": "order of elements and equality of points refuted"
  },
  {
   "property": "C62",
   "status": "proved",
   "theorems": [
    "C62_weightedSum_g1",
    "C62_weightedSum_g2",
    "C62_weightedSum_none",
    "C62_calculate",
    "C62_calculate_none"
   ],
   "note": "ModelYield.v restates weightedSum, miller_loop and calculate with the callback as a state transformer that may throw."
  },
  {
   "property": "C63",
   "status": "proved",
   "theorems": [
    "C63_family",
    "C63_moduli",
    "C63_montgomery",
    "C63_coefficients",
    "C63_cofactors",
    "C63_generators"
   ],
   "note": "Closed statements, computed in the kernel."
  },
  {
   "property": "C64",
   "status": "proved",
   "theorems": [
    "C64_hmac",
    "C64_expand_any",
    "C64_expand",
    "C64_expand_failure",
    "C64_expand_success_refuted",
    "C64_expand_leak",
    "C64_secret_key_any",
    "C64_secret_key",
    "C64_secret_key_failure",
    "C64_derive_any",
    "C64_derive"
   ],
   "note": "C64_expand_success_refuted and C64_secret_key_failure state what goes unreported."
  },
  {
   "property": "C65",
   "status": "proved",
   "theorems": [
    "C65_trace2",
    "C65_trace1",
    "C65_bounds"
   ],
   "note": "instruction latency is not modelled"
  },
  {
   "property": "C66",
   "status": "proved",
   "theorems": [
    "C66_scale",
    "C66_log_reveals",
    "C66_log_inj",
    "C66_log_length"
   ],
   "note": "negative finding: the operation sequence determines the secret scalar"
  },
  {
   "property": "C67",
   "status": "proved",
   "theorems": [
    "C67_accepts",
    "C67_roundtrip",
    "C67_malleability",
    "C67_canonical_unique",
    "C67_unique_refuted",
    "C67_infinity_refuted",
    "C67_affine_BE",
    "C67_affine_LE"
   ],
   "note": "compressed strings are not unique: x and x + p, and junk under the infinity flag (C67_unique_refuted, C67_infinity_refuted); affine strings are"
  },
  {
   "property": "C68",
   "status": "proved",
   "theorems": [
    "C68_add",
    "C68_scale",
    "C68_negate",
    "C68_unscale",
    "C68_concat",
    "C68_cancel",
    "C68_participation",
    "C68_merge",
    "C68_fast",
    "C68_fast_refuted",
    "C68_sum_refuted"
   ],
   "note": "Fast aggregate verification accepts more than aggregate verification when keys are not checked individually; aggregates of rejected signatures can be accepted."
  },
  {
   "property": "C69",
   "status": "proved",
   "theorems": [
    "C69_path",
    "C69_recover",
    "C69_siblings",
    "C69_related",
    "C69_identity_refuted"
   ],
   "note": "The identity key has representation-dependent children (refuted)."
  },
  {
   "property": "C70",
   "status": "proved",
   "theorems": [
    "C70_input_injective",
    "C70_collision",
    "C70_sig_pop"
   ],
   "note": "Collisions of SHA-256 appear explicitly in the statement; no assumption on SHA-256."
  },
  {
   "property": "C71",
   "status": "proved",
   "theorems": [
    "C71_public_key",
    "C71_identity",
    "C71_bytes",
    "C71_sign",
    "C71_words_refuted"
   ],
   "note": "Four-word keys are not unique: k and k + r."
  },
  {
   "property": "C72",
   "status": "proved",
   "theorems": [
    "C72_aggregate_returns",
    "C72_aggregate_first",
    "C72_aggregate_throws_refuted",
    "C72_derive",
    "C72_bytes"
   ],
   "note": "aggregate_secret_keys can throw when a later key is not below r (refuted)."
  },
  {
   "property": "C73",
   "status": "proved",
   "theorems": [
    "C73_pop_accepts",
    "C73_aggregate_accepts",
    "C73_fast_accepts",
    "C73_pop_reencode",
    "C73_aggregate_reencode",
    "C73_pop_roundtrip",
    "C73_aggregate_roundtrip",
    "C73_opposite",
    "C73_identity_refuted",
    "C73_subgroup_refuted"
   ],
   "note": "The natural claims that every honest aggregate survives compression and that only keys of the subgroup are accepted are false (refuted)."
  },
  {
   "property": "C74",
   "status": "proved",
   "theorems": [
    "C74_loop",
    "C74_iterations",
    "C74_inverse_reveals",
    "C74_inverse_inj",
    "C74_affine",
    "C74_affine_reveals",
    "C74_public_key",
    "C74_public_key_reveals"
   ],
   "note": "Branches of the loop of fp::inverse are logged; each branch is an invertible linear step on (u,v), so the log decodes to the argument."
  },
  {
   "property": "C75",
   "status": "proved",
   "theorems": [
    "C75_hashable",
    "C75_verify",
    "C75_sign",
    "C75_aggregate_verify",
    "C75_fast_aggregate_verify",
    "C75_pop",
    "C75_pairing"
   ],
   "note": "Exact condition on the message length; no condition on points. The inverse inside affine/SWU stays in bounds for every 384-bit operand (C53_inverse, C10_inverse_wide)."
  },
  {
   "property": "C76",
   "status": "proved",
   "theorems": [
    "C76_add",
    "C76_double",
    "C76_subtract",
    "C76_negate",
    "C76_multiply",
    "C76_multiply_exists",
    "C76_multiply_range",
    "C76_multiply_3p",
    "C76_multiply_refuted",
    "C76_ladd_multiply",
    "C76_lsubtract_multiply",
    "C76_unreduced"
   ],
   "note": "Exact conditions for congruence and for a canonical result of the five assembly routines on arbitrary 384-bit operands; witness for the lost carry of the product."
  },
  {
   "property": "C77",
   "status": "proved",
   "theorems": [
    "C77_sha256",
    "C77_sha256_message",
    "C77_sha256_log",
    "C77_hmac",
    "C77_expand"
   ],
   "note": "Logged array-level model of SHA-256, HMAC, HKDF-Expand; equal lengths give equal logs, values by C53."
  },
  {
   "property": "C78",
   "status": "proved",
   "theorems": [
    "C78_same_results",
    "C78_rounds",
    "C78_four_limbs",
    "C78_aggregate",
    "C78_child"
   ],
   "note": "Branch log of the division; exact number of rounds of the top-digit loop; consequences for aggregation and unhardened derivation. Branches inside the helper functions and inside scalar::add are not logged."
  },
  {
   "property": "C79",
   "status": "proved",
   "theorems": [
    "C79_size_unique",
    "C79_modPrime",
    "C79_secret_key",
    "C79_sk_from_bytes",
    "C79_sk_from_bytes_refuted",
    "C79_swuMapG1",
    "C79_swuMapG2",
    "C79_swu_collision_refuted",
    "C79_g1_mapToCurve",
    "C79_g2_mapToCurve",
    "C79_strings",
    "C79_fromMessage"
   ],
   "note": "Exact numbers of preimages for the reductions; upper bounds for the maps to the curves and the hash. The 3:2 bias of the 32-byte reduction and the collision of swuMapG1 are the _refuted theorems."
  },
  {
   "property": "C80",
   "status": "proved",
   "theorems": [
    "C80_hmac",
    "C80_hmac_key_refuted",
    "C80_secret_key",
    "C80_derive_child_sk",
    "C80_unhardened",
    "C80_expand",
    "C80_verify",
    "C80_sig_pop"
   ],
   "note": "Reductions to collisions of SHA-256 among explicitly listed strings; nothing is assumed about SHA-256. C80_hmac_key_refuted: keys differing in trailing zeros are the same HMAC key."
  },
  {
   "property": "C81",
   "status": "proved",
   "theorems": [
    "C81_tower2",
    "C81_tower6",
    "C81_tower12",
    "C81_g1",
    "C81_g1_bytes",
    "C81_g2",
    "C81_g2_bytes",
    "C81_maps",
    "C81_pairing",
    "C81_keys",
    "C81_signatures",
    "C81_wire_verify",
    "C81_wire_pop",
    "C81_wire_aggregate",
    "C81_honest",
    "C81_any_cpu",
    "C81_portable_refuted"
   ],
   "note": "Every function of the tower, the curves, the codecs, the maps, the pairing and the signature layer on limbs over the interpreted assembly equals the model on integers; end-to-end verdicts on byte strings; independence of the multiplier; the portable build is refuted."
  },
  {
   "property": "C82",
   "status": "proved",
   "theorems": [
    "C82_injective",
    "C82_honest",
    "C82_plain_refuted",
    "C82_rogue"
   ],
   "note": "Injectivity of the augmented message, exact condition for the honest aggregate, rogue key without augmentation, reduction with it."
  },
  {
   "property": "C83",
   "status": "proved",
   "theorems": [
    "C83_canonical",
    "C83_unreduced",
    "C83_dangerous",
    "C83_rare"
   ],
   "note": "agreement of the two builds: exact for the additive operations, unconditional for multiplication, sufficient condition for squaring; upper bound on the number of bad operands"
  },
  {
   "property": "C84",
   "status": "proved",
   "theorems": [
    "C84_keys",
    "C84_signatures",
    "C84_accepted",
    "C84_one_wrong",
    "C84_threshold",
    "C84_too_few",
    "C84_hidden"
   ],
   "note": "any shares and weights of four words; list sizes below 2^64; the message below 2^31 bytes"
  },
  {
   "property": "C85",
   "status": "proved",
   "theorems": [
    "C85_complete",
    "C85_sound",
    "C85_one_weight",
    "C85_unchecked_refuted",
    "C85_unweighted_refuted"
   ],
   "note": "items with coordinates below p; weights of four words; list sizes below 2^64; messages below 2^31 bytes"
  }
 ]
}