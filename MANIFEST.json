{
 "claims": [
  {
   "property": "C01",
   "status": "proved",
   "theorems": [
    "C01_add",
    "C01_sub",
    "C01_neg",
    "C01_sub_words",
    "C01_add_words"
   ],
   "note": "sc_add, sc_sub, sc_neg (scalar.go) on all reduced scalars; the *_words theorems add the exact behaviour on unreduced words."
  },
  {
   "property": "C02",
   "status": "proved",
   "theorems": [
    "C02_mul",
    "C02_square",
    "C02_mulAdd",
    "C02_mulSub"
   ],
   "note": "Mul, Square, MulAdd, MulSub for all word arrays; the model wraps every int64/uint64 operation, so exactness excludes harmful overflow."
  },
  {
   "property": "C03",
   "status": "proved",
   "theorems": [
    "C03_setReduced",
    "C03_rand",
    "C03_derive"
   ],
   "note": "Random source and hash are universally quantified."
  },
  {
   "property": "C04",
   "status": "proved",
   "theorems": [
    "C04_inverse"
   ],
   "note": "Fermat inverse; primality of l is proved (Pratt/Lucas style certificate in PrimeCerts.v). Aliasing is C39."
  },
  {
   "property": "C05",
   "status": "proved",
   "theorems": [
    "C05_setBytes",
    "C05_unmarshalBinary"
   ],
   "note": ""
  },
  {
   "property": "C06",
   "status": "proved",
   "theorems": [
    "C06_setBytesStrict"
   ],
   "note": ""
  },
  {
   "property": "C07",
   "status": "proved",
   "theorems": [
    "C07_bytes",
    "C07_round_trip",
    "C07_canonical",
    "C07_injective"
   ],
   "note": ""
  },
  {
   "property": "C08",
   "status": "proved",
   "theorems": [
    "C08_setBigInt",
    "C08_bigInt",
    "C08_setUint64",
    "C08_deriveShort",
    "C08_set"
   ],
   "note": "big.Int is modelled by Z with Mod, Bytes and SetBytes as documented in math/big; SHA-512 is universally quantified."
  },
  {
   "property": "C09",
   "status": "proved",
   "theorems": [
    "C09_isNonZeroI",
    "C09_equals",
    "C09_equals_words"
   ],
   "note": ""
  },
  {
   "property": "C10",
   "status": "proved",
   "theorems": [
    "C10_field",
    "C10_point",
    "C10_scalar"
   ],
   "note": "Points and field elements on the 64-bit backend."
  },
  {
   "property": "C11",
   "status": "proved",
   "theorems": [
    "C11_mul",
    "C11_square",
    "C11_doubledSquare",
    "C11_lazy_add",
    "C11_lazy_sub",
    "C11_neg",
    "C11_Add",
    "C11_Sub",
    "C11_normalize"
   ],
   "note": "64-bit backend with field_mul64.go; the model wraps every operation to its Go width, so exactness excludes harmful overflow."
  },
  {
   "property": "C12",
   "status": "proved",
   "theorems": [
    "C12_bytes",
    "C12_setBytes",
    "C12_bytes_setBytes",
    "C12_setBytes_bytes",
    "C12_SetBigInt",
    "C12_BigInt"
   ],
   "note": "math/big is modelled by Z (Bytes, SetBytes, Mod as documented)."
  },
  {
   "property": "C13",
   "status": "proved",
   "theorems": [
    "C13_inverse"
   ],
   "note": ""
  },
  {
   "property": "C14",
   "status": "proved",
   "theorems": [
    "C14_InvSqrt",
    "C14_InvSqrtI",
    "C14_Sqrt"
   ],
   "note": ""
  },
  {
   "property": "C15",
   "status": "proved",
   "theorems": [
    "C15_IsNegativeI",
    "C15_IsNonZeroI",
    "C15_Equals",
    "C15_IsOneI",
    "C15_Abs"
   ],
   "note": ""
  },
  {
   "property": "C16",
   "status": "proved",
   "theorems": [
    "C16_add",
    "C16_sub",
    "C16_double",
    "C16_neg",
    "C16_zero",
    "C16_base",
    "C16_closed"
   ],
   "note": "Stated for the pure Go 64-bit build; the other builds are C45. C16_base: the library base point is the RFC 8032 base point plus (-i,0)."
  },
  {
   "property": "C17",
   "status": "proved",
   "theorems": [
    "C17_assoc",
    "C17_comm",
    "C17_zero",
    "C17_neg",
    "C17_sub",
    "C17_double",
    "C17_compat",
    "C17_valid"
   ],
   "note": "Stated for the pure Go 64-bit build; the other builds are C45."
  },
  {
   "property": "C18",
   "status": "proved",
   "theorems": [
    "C18_scalarMult",
    "C18_element",
    "C18_Emul_sum"
   ],
   "note": "Stated for the pure Go 64-bit build; the other builds are C45."
  },
  {
   "property": "C19",
   "status": "proved",
   "theorems": [
    "C19_publicScalarMult",
    "C19_same"
   ],
   "note": "Stated for the pure Go 64-bit build; the other builds are C45. Slice bounds and fuel exhaustion are modelled as None, so Some excludes panics."
  },
  {
   "property": "C20",
   "status": "proved",
   "theorems": [
    "C20_tables",
    "C20_entries"
   ],
   "note": "Stated for the pure Go 64-bit build; the other builds are C45."
  },
  {
   "property": "C21",
   "status": "proved",
   "theorems": [
    "C21_table",
    "C21_mult",
    "C21_class"
   ],
   "note": "Stated for the pure Go 64-bit build; the other builds are C45. All 256 literal table entries checked."
  },
  {
   "property": "C22",
   "status": "proved",
   "theorems": [
    "C22_cyclic",
    "C22_order",
    "C22_base_nonzero",
    "C22_prime"
   ],
   "note": "Stated for the pure Go 64-bit build; the other builds are C45. The group order is proved from scratch (point counting by generator and pigeonhole)."
  },
  {
   "property": "C23",
   "status": "proved",
   "theorems": [
    "C23_add",
    "C23_sub",
    "C23_mul",
    "C23_neg",
    "C23_one",
    "C23_zero",
    "C23_dist",
    "C23_inverse",
    "C23_compat",
    "C23_free"
   ],
   "note": "Stated for the pure Go 64-bit build; the other builds are C45."
  },
  {
   "property": "C24",
   "status": "proved",
   "theorems": [
    "C24_equals",
    "C24_torsion",
    "C24_refl",
    "C24_sym",
    "C24_trans"
   ],
   "note": "Stated for the pure Go 64-bit build; the other builds are C45."
  },
  {
   "property": "C25",
   "status": "proved",
   "theorems": [
    "C25_injective",
    "C25_length",
    "C25_specification"
   ],
   "note": "Stated for the pure Go 64-bit build; the other builds are C45. Includes agreement with the ristretto specification and the RFC 9496 encoding of the base point."
  },
  {
   "property": "C26",
   "status": "proved",
   "theorems": [
    "C26_roundtrip",
    "C26_binary"
   ],
   "note": "Stated for the pure Go 64-bit build; the other builds are C45."
  },
  {
   "property": "C27",
   "status": "proved",
   "theorems": [
    "C27_sound",
    "C27_iff",
    "C27_length",
    "C27_unmarshal"
   ],
   "note": "Stated for the pure Go 64-bit build; the other builds are C45."
  },
  {
   "property": "C28",
   "status": "proved",
   "theorems": [
    "C28_failed",
    "C28_zerovalue_invalid",
    "C28_zerovalue_equals"
   ],
   "note": "Stated for the pure Go 64-bit build; the other builds are C45."
  },
  {
   "property": "C29",
   "status": "proved",
   "theorems": [
    "C29_map_total",
    "C29_elligator",
    "C29_valid",
    "C29_same",
    "C29_top_bit",
    "C29_rand",
    "C29_derive"
   ],
   "note": "Stated for the pure Go 64-bit build; the other builds are C45. rfc_map is RFC 9496 section 4.3.4 over GF(p); random source and SHA-512 are universally quantified."
  },
  {
   "property": "C30",
   "status": "proved",
   "theorems": [
    "C30_sound",
    "C30_at_most_8",
    "C30_exact"
   ],
   "note": "Stated for the pure Go 64-bit build; the other builds are C45. C30_exact gives the exact set of reported field elements."
  },
  {
   "property": "C31",
   "status": "partial",
   "theorems": [
    "C31_refuted",
    "C31_complete_partial",
    "C31_nonzero_partial",
    "C31_missed_value"
   ],
   "note": "Refuted as stated (C31_refuted): at the identity the square root of i/d is a preimage that is not reported. Proved that this is the only exception."
  },
  {
   "property": "C32",
   "status": "proved",
   "theorems": [
    "C32_valid",
    "C32_sound",
    "C32_decode",
    "C32_roundtrip",
    "C32_none",
    "C32_decode_any_hash",
    "C32_lizard"
   ],
   "note": "Stated for the pure Go 64-bit build; the other builds are C45. Soundness for every 32-byte hash; decoding for the FIPS 180-4 model of SHA-256 (Sha256.v) on all points, and for every hash away from the identity."
  },
  {
   "property": "C33",
   "status": "proved",
   "theorems": [
    "C33_point",
    "C33_scalar",
    "C33_hex"
   ],
   "note": "Points on the pure Go 64-bit build; the other builds are C45_text. encoding/base64 and encoding/hex are modelled in TextCodec.v."
  },
  {
   "property": "C34",
   "status": "partial",
   "theorems": [
    "C34_refuted",
    "C34_point_panics_partial",
    "C34_scalar_panics_partial",
    "C34_short_partial",
    "C34_point_done_partial",
    "C34_point_fail_partial",
    "C34_scalar_done_partial",
    "C34_scalar_accepts_partial",
    "C34_scalar_fail_partial"
   ],
   "note": "Refuted as stated (C34_refuted): text with 44 or more base64 characters panics. Proved exactly which texts panic, and what success and failure do to the receiver. Other builds: C45_text_cases."
  },
  {
   "property": "C35",
   "status": "proved",
   "theorems": [
    "C35_elgamal"
   ],
   "note": "Stated for the pure Go 64-bit build; the other builds are C45."
  },
  {
   "property": "C36",
   "status": "proved",
   "theorems": [
    "C36_mul",
    "C36_mul_sharp",
    "C36_square",
    "C36_doubledSquare",
    "C36_normalize",
    "C36_add",
    "C36_sub",
    "C36_neg",
    "C36_conditionalSet",
    "C36_setBytes",
    "C36_bytesInto",
    "C36_constants"
   ],
   "note": "field_generic.go: every int32/int64 operation of the model wraps, so exactness excludes harmful overflow. C36_mul_sharp: the bound on the second factor of Mul is the largest possible."
  },
  {
   "property": "C37",
   "status": "partial",
   "theorems": [
    "C37_refuted",
    "C37_decoded_add_refuted",
    "C37_static_partial",
    "C37_safe_partial",
    "C37_base_table"
   ],
   "note": "Refuted as stated (C37_refuted): a Point decoded by SetBytes can have limbs for which Add overflows int32 in the generic build. Proved for all programs that do not use decoded Points as second operand of Add/Sub or as argument of ScalarMult/PublicScalarMult/Compute, and for those whose limbs then fit."
  },
  {
   "property": "C38",
   "status": "partial",
   "theorems": [
    "C38_field64",
    "C38_point64",
    "C38_refuted",
    "C38_value_partial",
    "C38_lizard_partial"
   ],
   "note": "Proved for the 64-bit backend. Refuted for the generic backend (C38_refuted): BytesInto writes its receiver, hence so do IsNegativeI, IsNonZeroI and Lizard. Proved there that the represented value does not change."
  },
  {
   "property": "C39",
   "status": "partial",
   "theorems": [
    "C39_Scalar_Add",
    "C39_Scalar_Sub",
    "C39_Scalar_Neg",
    "C39_Scalar_Mul",
    "C39_Scalar_Square",
    "C39_Scalar_MulAdd",
    "C39_Scalar_MulSub",
    "C39_Scalar_ConditionalSet",
    "C39_r51_add",
    "C39_r51_sub",
    "C39_r51_Mul",
    "C39_r51_Neg",
    "C39_r51_Square",
    "C39_r51_DoubledSquare",
    "C39_r51_ConditionalSet",
    "C39_g25_add",
    "C39_g25_sub",
    "C39_g25_Mul",
    "C39_g25_Neg",
    "C39_g25_Square",
    "C39_g25_DoubledSquare",
    "C39_g25_ConditionalSet",
    "C39_r51_setReduced",
    "C39_FieldElement_Add",
    "C39_FieldElement_Sub",
    "C39_FieldElement_double",
    "C39_FieldElement_Inverse",
    "C39_FieldElement_Exp22523",
    "C39_FieldElement_InvSqrt",
    "C39_FieldElement_Sqrt",
    "C39_ExtendedPoint_Set",
    "C39_ExtendedPoint_ConditionalSet",
    "C39_ExtendedPoint_Double",
    "C39_ExtendedPoint_Add",
    "C39_ExtendedPoint_Sub",
    "C39_ExtendedPoint_Neg",
    "C39_ExtendedPoint_ScalarMult",
    "C39_NielsPoint_Set",
    "C39_NielsPoint_ConditionalSet",
    "C39_JacobiPoint_Dual",
    "C39_Scalar_Inverse",
    "C39_FieldElement_InvSqrtI",
    "C39_FieldElement_Abs",
    "C39_refuted",
    "C39_NielsPoint_Neg_partial"
   ],
   "note": "Proved for the methods listed, for every aliasing of receiver and arguments, all values and all backends (FieldElement.Abs: 64-bit; on the generic backend it also writes its argument, see C38). Refuted for one exported method (C39_refuted): NielsPoint.Neg with the receiver as argument; C39_NielsPoint_Neg_partial is what holds."
  },
  {
   "property": "C40",
   "status": "proved",
   "theorems": [
    "C40_history",
    "C40_states",
    "C40_distinguish"
   ],
   "note": "64-bit backend (radix 2^51); all builds: C45_history. The encodings are existentially quantified in C40_history."
  },
  {
   "property": "C41",
   "status": "proved",
   "theorems": [
    "C41_feMul",
    "C41_feSquare",
    "C41_mul",
    "C41_square",
    "C41_doubledSquare",
    "C41_agree",
    "C41_agree_doubledSquare",
    "C41_api"
   ],
   "note": "field_amd64.s, instruction by instruction (list generated by tools/asm2coq.py), for every placement of operands and result. The Go assembler and the processor are trusted to execute the listed instructions as modelled in Amd64Model.v; the clobbering of BP by feMul is outside the model."
  },
  {
   "property": "C42",
   "status": "proved",
   "theorems": [
    "C42_ScalarMult_r51",
    "C42_ScalarMult_generic",
    "C42_ScalarMult_amd64",
    "C42_table_r51",
    "C42_table_generic",
    "C42_table_amd64",
    "C42_BytesInto",
    "C42_assembly",
    "C42_result",
    "C42_code_r51",
    "C42_code_amd64",
    "C42_code_generic",
    "C42_contrast_code"
   ],
   "note": "Branches and addresses in the sense of GoLang.v: the Go source as translated by tools/go2prog.py and go2imp.py, each variable a block of its own; what the compiler makes of it is outside the model. All three field backends; the assembly is covered by Amd64Trace.v. Stronger than stated: no dependence on the point either. C42_code_*: the programs compute the functions of the backends."
  },
  {
   "property": "C43",
   "status": "proved",
   "theorems": [
    "C43_code_scalars",
    "C43_points_r51",
    "C43_points_generic",
    "C43_points_amd64",
    "C43_scalars",
    "C43_Inverse",
    "C43_SetBytesStrict",
    "C43_results_points",
    "C43_results_scalars",
    "C43_results_others",
    "C43_backends"
   ],
   "note": "Traces as in C42, for the methods listed by name in GoSecret.v, which are proved to compute the functions of the other properties (C43_results_*, C43_code_scalars). Outside the list: methods that hash (SHA-256/512), text and big.Int conversions, and Bytes (allocates, then BytesInto). All three field backends."
  },
  {
   "property": "C44",
   "status": "proved",
   "theorems": [
    "C44_strings",
    "C44_setReduced",
    "C44_rand",
    "C44_setBytes",
    "C44_elligator",
    "C44_point_rand",
    "C44_builds",
    "C44_onto_refuted",
    "C44_sixteen"
   ],
   "note": "Counts are exact for scalars; for points an upper bound, for all builds. C44_onto_refuted: not every point is reached."
  },
  {
   "property": "C45",
   "status": "proved",
   "theorems": [
    "C45_add",
    "C45_double",
    "C45_neg",
    "C45_constants",
    "C45_conditionalSet",
    "C45_scalarMult",
    "C45_tables",
    "C45_tableMult",
    "C45_baseMult",
    "C45_equals",
    "C45_bytes",
    "C45_decode",
    "C45_decode_same",
    "C45_roundtrip",
    "C45_elligator",
    "C45_inverse",
    "C45_lizard",
    "C45_lizard_sound",
    "C45_elligator_same",
    "C45_lizard_same",
    "C45_text",
    "C45_text_cases",
    "C45_history",
    "C45_elgamal",
    "C45_summand",
    "C45_mul",
    "C45_addfe",
    "C45_codec",
    "C45_inverseFe",
    "C45_invSqrt",
    "C45_tests"
   ],
   "note": "Builds: field_radix51.go with field_mul64.go, field_radix51.go with field_amd64.s, field_generic.go. In the generic build the second operand of Add and the operand of multiplications has to satisfy a bound that all results except those of decoding do (C37 shows that it is needed)."
  },
  {
   "property": "C46",
   "status": "proved",
   "theorems": [
    "C46_points",
    "C46_points64",
    "C46_same",
    "C46_scalars",
    "C46_Inverse",
    "C46_limbs",
    "C46_concurrent_points64",
    "C46_concurrent_points",
    "C46_concurrent_scalars"
   ],
   "note": "For the methods listed in GoResults.v. A step is one assignment to a word or limb (scalars, limbs) or one call of the field backend (points), on sequentially consistent memory; Go guarantees that for programs without data races, and the writes show that there are none. In the generic build without RistrettoElligator2Inverse and FieldElement.Abs, which write an operand there."
  },
  {
   "property": "C47",
   "status": "proved",
   "theorems": [
    "C47_mul",
    "C47_square",
    "C47_square_double",
    "C47_add",
    "C47_sub",
    "C47_neg",
    "C47_cmov",
    "C47_unpack",
    "C47_pack",
    "C47_tests",
    "C47_abs",
    "C47_invert",
    "C47_invsqrt",
    "C47_sqrt",
    "C47_invsqrti",
    "C47_sqrti",
    "C47_iso_shifts_refuted",
    "C47_iso_shifts_pack_refuted"
   ],
   "note": "Shifts, and conversions to signed types, as defined by GCC; C47_iso_shifts_refuted shows that ISO C11 alone is not enough."
  },
  {
   "property": "C48",
   "status": "proved",
   "theorems": [
    "C48_unpack",
    "C48_pack",
    "C48_from64bytes",
    "C48_constants",
    "C48_add",
    "C48_sub",
    "C48_negate",
    "C48_mul",
    "C48_square",
    "C48_invert",
    "C48_tests",
    "C48_tstbit",
    "C48_bitlen",
    "C48_window3",
    "C48_window5",
    "C48_go"
   ],
   "note": ""
  },
  {
   "property": "C49",
   "status": "proved",
   "theorems": [
    "C49_add",
    "C49_double",
    "C49_negate",
    "C49_equals",
    "C49_isneutral",
    "C49_isneutral_even"
   ],
   "note": "C semantics as for C47."
  },
  {
   "property": "C50",
   "status": "proved",
   "theorems": [
    "C50_pack",
    "C50_unpack",
    "C50_same_decoder_refuted",
    "C50_elligator"
   ],
   "note": "C semantics as for C47. C50_same_decoder_refuted: group_ge_unpack accepts more than SetBytes."
  },
  {
   "property": "C51",
   "status": "proved",
   "theorems": [
    "C51_scalarmult",
    "C51_scalarmult_base",
    "C51_multiscalarmult",
    "C51_constants",
    "C51_base_unreduced",
    "C51_base_unreduced_refuted",
    "C51_go_scalarmult",
    "C51_go_base"
   ],
   "note": "C semantics as for C47. C51_base_unreduced_refuted: group_ge_scalarmult_base is wrong for some scalars that are not reduced; C51_base_unreduced says for which, and what the result is. group_ge_multiscalarmult: for a result that is not one of the operands."
  },
  {
   "property": "C52",
   "status": "proved",
   "theorems": [
    "C52_fe_mul",
    "C52_fe_add",
    "C52_fe_sub",
    "C52_fe_neg",
    "C52_fe_square",
    "C52_fe_square_double",
    "C52_fe_cmov",
    "C52_fe_calls",
    "C52_fe_calls_int",
    "C52_triple_overlap_refuted",
    "C52_add",
    "C52_double",
    "C52_negate",
    "C52_equals",
    "C52_isneutral",
    "C52_elligator",
    "C52_scalarmult",
    "C52_scalarmult_base",
    "C52_multiscalarmult",
    "C52_multi_overlap_refuted",
    "C52_scalar_add"
   ],
   "note": "C semantics as for C47. A field element is one memory cell for the functions above the field operations, so points overlap in whole field elements. C52_triple_overlap_refuted and C52_multi_overlap_refuted show the two calls for which overlap matters."
  },
  {
   "property": "C53",
   "status": "proved",
   "theorems": [
    "C53_add",
    "C53_double",
    "C53_neg",
    "C53_zero",
    "C53_addExtended",
    "C53_addNiels",
    "C53_doubles",
    "C53_convert",
    "C53_niels",
    "C53_scalarMult",
    "C53_scalarMult_exact",
    "C53_scalarMult_refuted",
    "C53_table",
    "C53_tableMult",
    "C53_tableVarTime",
    "C53_varTime",
    "C53_varTime_exact",
    "C53_varTime_refuted"
   ],
   "note": "C53_scalarMult_refuted and C53_varTime_refuted have scalars above the bounds for which the multiple is wrong. In the generic build the second operand of Add has to satisfy the bound of C45."
  },
  {
   "property": "C54",
   "status": "proved",
   "theorems": [
    "C54_slide",
    "C54_slide_unique",
    "C54_go_naf",
    "C54_slide_go",
    "C54_slide_1_refuted",
    "C54_slide_large_refuted",
    "C54_field",
    "C54_publicinputs"
   ],
   "note": "C54_slide_1_refuted and C54_slide_large_refuted show the two cases in which the digits are wrong. The argument swindowsize has to be at most 31 (otherwise a shift is undefined); the statement about the model has no upper bound."
  },
  {
   "property": "C55",
   "status": "proved",
   "theorems": [
    "C55_encode",
    "C55_encode_self",
    "C55_decode",
    "C55_unmarshal",
    "C55_equals",
    "C55_group",
    "C55_base",
    "C55_map",
    "C55_derive",
    "C55_derive_rfc_refuted",
    "C55_c_encode",
    "C55_c_decode",
    "C55_c_map",
    "C55_c_base"
   ],
   "note": "The RFC is transcribed in Rfc9496.v and tested on vectors of its appendix. C55_derive_rfc_refuted: Derive is not the derivation of the RFC (the documentation of DeriveDalek says so)."
  },
  {
   "property": "C56",
   "status": "proved",
   "theorems": [
    "C56_injective",
    "C56_accepted",
    "C56_onto",
    "C56_count",
    "C56_point",
    "C56_add",
    "C56_neg",
    "C56_mult",
    "C56_zero",
    "C56_cref",
    "C56_dh",
    "C56_dh_summand",
    "C56_dh_generic_refuted"
   ],
   "note": "Between the 64-bit builds unconditionally; for the generic build when the decoded Point satisfies the bound of C45. C56_dh_generic_refuted: without that bound ScalarMult of a decoded Point is wrong for a concrete encoding and the scalar 3."
  },
  {
   "property": "C57",
   "status": "proved",
   "theorems": [
    "C57_field",
    "C57_field_eq",
    "C57_point",
    "C57_scalar",
    "C57_extended",
    "C57_completed",
    "C57_extended_parts",
    "C57_completed_parts",
    "C57_jacobi",
    "C57_hex"
   ],
   "note": "math/big Int.String, encoding/hex EncodeToString and fmt.Sprintf with %v are modelled in StringModel.v."
  },
  {
   "property": "C58",
   "status": "proved",
   "theorems": [
    "C58_example",
    "C58_roundtrip",
    "C58_sent"
   ],
   "note": "A failing random source (panic) is in C67."
  },
  {
   "property": "C59",
   "status": "proved",
   "theorems": [
    "C59_windows",
    "C59_scalarMult",
    "C59_varTime",
    "C59_table",
    "C59_tableMult",
    "C59_tableVarTime",
    "C59_tableVarTime_refuted",
    "C59_elligator",
    "C59_lizard",
    "C59_bigInt"
   ],
   "note": "Indices that are constants in the source are checked by the Go compiler and not modelled again. UnmarshalText panics: C34."
  },
  {
   "property": "C60",
   "status": "proved",
   "theorems": [
    "C60_scalar",
    "C60_point",
    "C60_agree",
    "C60_agree_refuted"
   ],
   "note": "SHA-512 is transcribed from FIPS 180-4 (Sha512.v); that crypto/sha512 computes it is assumed. C60_agree_refuted: Derive and DeriveDalek differ on \"test1\"."
  },
  {
   "property": "C61",
   "status": "proved",
   "theorems": [
    "C61_scalar",
    "C61_field",
    "C61_curve",
    "C61_elligator",
    "C61_inverse",
    "C61_inverse_refuted",
    "C61_tables",
    "C61_ristretto",
    "C61_off"
   ],
   "note": "The exceptions are part of the statement; C61_inverse_refuted has the input for which TestRistrettoElligator2Inverse fails. Tests on fixed vectors are evaluated by tools/kat.py instead."
  },
  {
   "property": "C62",
   "status": "proved",
   "theorems": [
    "C62_sources",
    "C62_invalid",
    "C62_add",
    "C62_unary",
    "C62_condset",
    "C62_scalarMult",
    "C62_table",
    "C62_zero_table",
    "C62_equals",
    "C62_bytes",
    "C62_secret",
    "C62_forgery"
   ],
   "note": "C62_secret and C62_forgery are the consequences for a program that ignores the result of SetBytes."
  },
  {
   "property": "C63",
   "status": "proved",
   "theorems": [
    "C63_erase",
    "C63_scalar_size",
    "C63_scalar_binary",
    "C63_point_size",
    "C63_point_binary",
    "C63_scalar_text",
    "C63_point_text",
    "C63_lizard",
    "C63_message",
    "C63_wording"
   ],
   "note": "C63_erase links the models with error values to those of C12, C32, C33 and C34."
  },
  {
   "property": "C64",
   "status": "proved",
   "theorems": [
    "C64_history",
    "C64_coordinates",
    "C64_same_machine"
   ],
   "note": "The functions of the ideal machine exist: C64_same_machine."
  },
  {
   "property": "C65",
   "status": "proved",
   "theorems": [
    "C65_exact",
    "C65_special",
    "C65_check_bits",
    "C65_single",
    "C65_mean",
    "C65_hashes",
    "C65_not_alone",
    "C65_sha256",
    "C65_specials"
   ],
   "note": "Upper bounds for the probability and the mean; the bound of 99.9 % for at most 80 undecodable inputs is not proved. C65_hashes says what is summed over."
  },
  {
   "property": "C66",
   "status": "proved",
   "theorems": [
    "C66_run",
    "C66_extends",
    "C66_no_panic",
    "C66_same"
   ],
   "note": "Without the hypothesis of C40 and C45 that a Point is set before it is used. On the generic build for programs with [tracks]."
  },
  {
   "property": "C67",
   "status": "proved",
   "theorems": [
    "C67_run",
    "C67_panics",
    "C67_same"
   ],
   "note": "All exported methods, with errors and recovered panics. ConditionalSet with 0 and 1 only. On the generic build for programs with [xtracks]."
  },
  {
   "property": "C68",
   "status": "proved",
   "theorems": [
    "C68_run",
    "C68_same"
   ],
   "note": "ConditionalSet with 0 and 1 only. Callers that write limbs directly are not modelled."
  },
  {
   "property": "C69",
   "status": "proved",
   "theorems": [
    "C69_run",
    "C69_same",
    "C69_neg_alias_refuted"
   ],
   "note": "ConditionalSet with 0 and 1 only. String is left to C57; of the eight field elements of RistrettoElligator2Inverse the order is not seen; callers that write coordinates directly are not modelled."
  },
  {
   "property": "C70",
   "status": "proved",
   "theorems": [
    "C70_set",
    "C70_dual",
    "C70_cover",
    "C70_points",
    "C70_inverse",
    "C70_inverse_refuted"
   ],
   "note": "The comment of elligator2Inverse (returns 0 if there is no preimage) is refuted for (0,1)."
  }
 ]
}