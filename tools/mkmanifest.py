#!/usr/bin/env python3
"""Write MANIFEST.json: for every property, the theorems named Cnn_... in rocq/theories/Prop*.v,
with the status and note of the table below."""
import json, re, glob, os
ROOT = os.path.dirname(os.path.dirname(os.path.abspath(__file__)))
STATUS = {
 'C01': ('proved', 'sc_add, sc_sub, sc_neg (scalar.go) on all reduced scalars; the *_words theorems add the exact behaviour on unreduced words.'),
 'C02': ('proved', 'Mul, Square, MulAdd, MulSub for all word arrays; the model wraps every int64/uint64 operation, so exactness excludes harmful overflow.'),
 'C03': ('proved', 'Random source and hash are universally quantified.'),
 'C04': ('proved', 'Fermat inverse; primality of l is proved (Pratt/Lucas style certificate in PrimeCerts.v). Aliasing is C39.'),
 'C05': ('proved', ''),
 'C06': ('proved', ''),
 'C07': ('proved', ''),
 'C08': ('proved', 'big.Int is modelled by Z with Mod, Bytes and SetBytes as documented in math/big; SHA-512 is universally quantified.'),
 'C09': ('proved', ''),
 'C10': ('proved', 'Points and field elements on the 64-bit backend.'),
 'C11': ('proved', '64-bit backend with field_mul64.go; the model wraps every operation to its Go width, so exactness excludes harmful overflow.'),
 'C12': ('proved', 'math/big is modelled by Z (Bytes, SetBytes, Mod as documented).'),
 'C13': ('proved', ''),
 'C14': ('proved', ''),
 'C15': ('proved', ''),
 'C16': ('proved', 'Stated for the pure Go 64-bit build; the other builds are C45. C16_base: the library base point is the RFC 8032 base point plus (-i,0).'),
 'C17': ('proved', 'Stated for the pure Go 64-bit build; the other builds are C45.'),
 'C18': ('proved', 'Stated for the pure Go 64-bit build; the other builds are C45.'),
 'C19': ('proved', 'Stated for the pure Go 64-bit build; the other builds are C45. Slice bounds and fuel exhaustion are modelled as None, so Some excludes panics.'),
 'C20': ('proved', 'Stated for the pure Go 64-bit build; the other builds are C45.'),
 'C21': ('proved', 'Stated for the pure Go 64-bit build; the other builds are C45. All 256 literal table entries checked.'),
 'C22': ('proved', 'Stated for the pure Go 64-bit build; the other builds are C45. The group order is proved from scratch (point counting by generator and pigeonhole).'),
 'C23': ('proved', 'Stated for the pure Go 64-bit build; the other builds are C45.'),
 'C24': ('proved', 'Stated for the pure Go 64-bit build; the other builds are C45.'),
 'C25': ('proved', 'Stated for the pure Go 64-bit build; the other builds are C45. Includes agreement with the ristretto specification and the RFC 9496 encoding of the base point.'),
 'C26': ('proved', 'Stated for the pure Go 64-bit build; the other builds are C45.'),
 'C27': ('proved', 'Stated for the pure Go 64-bit build; the other builds are C45.'),
 'C28': ('proved', 'Stated for the pure Go 64-bit build; the other builds are C45.'),
 'C29': ('proved', 'Stated for the pure Go 64-bit build; the other builds are C45. rfc_map is RFC 9496 section 4.3.4 over GF(p); random source and SHA-512 are universally quantified.'),
 'C30': ('proved', 'Stated for the pure Go 64-bit build; the other builds are C45. C30_exact gives the exact set of reported field elements.'),
 'C31': ('partial', 'Refuted as stated (C31_refuted): at the identity the square root of i/d is a preimage that is not reported. Proved that this is the only exception.'),
 'C32': ('proved', 'Stated for the pure Go 64-bit build; the other builds are C45. Soundness for every 32-byte hash; decoding for the FIPS 180-4 model of SHA-256 (Sha256.v) on all points, and for every hash away from the identity.'),
 'C33': ('proved', 'Points on the pure Go 64-bit build; the other builds are C45_text. encoding/base64 and encoding/hex are modelled in TextCodec.v.'),
 'C34': ('partial', 'Refuted as stated (C34_refuted): text with 44 or more base64 characters panics. Proved exactly which texts panic, and what success and failure do to the receiver. Other builds: C45_text_cases.'),
 'C35': ('proved', 'Stated for the pure Go 64-bit build; the other builds are C45.'),
 'C36': ('proved', 'field_generic.go: every int32/int64 operation of the model wraps, so exactness excludes harmful overflow. C36_mul_sharp: the bound on the second factor of Mul is the largest possible.'),
 'C37': ('partial', 'Refuted as stated (C37_refuted): a Point decoded by SetBytes can have limbs for which Add overflows int32 in the generic build. Proved for all programs that do not use decoded Points as second operand of Add/Sub or as argument of ScalarMult/PublicScalarMult/Compute, and for those whose limbs then fit.'),
 'C38': ('partial', 'Proved for the 64-bit backend. Refuted for the generic backend (C38_refuted): BytesInto writes its receiver, hence so do IsNegativeI, IsNonZeroI and Lizard. Proved there that the represented value does not change.'),
 'C41': ('proved', 'field_amd64.s, instruction by instruction (list generated by tools/asm2coq.py), for every placement of operands and result. The Go assembler and the processor are trusted to execute the listed instructions as modelled in Amd64Model.v; the clobbering of BP by feMul is outside the model.'),
 'C39': ('partial', 'Proved for the methods listed, for every aliasing of receiver and arguments, all values and all backends (FieldElement.Abs: 64-bit; on the generic backend it also writes its argument, see C38). Refuted for one exported method (C39_refuted): NielsPoint.Neg with the receiver as argument; C39_NielsPoint_Neg_partial is what holds.'),
 'C42': ('proved', 'Branches and addresses in the sense of GoLang.v: the Go source as translated by tools/go2prog.py and go2imp.py, each variable a block of its own; what the compiler makes of it is outside the model. All three field backends; the assembly is covered by Amd64Trace.v. Stronger than stated: no dependence on the point either. C42_code_*: the programs compute the functions of the backends.'),
 'C43': ('proved', 'Traces as in C42, for the methods listed by name in GoSecret.v, which are proved to compute the functions of the other properties (C43_results_*, C43_code_scalars). Outside the list: methods that hash (SHA-256/512), text and big.Int conversions, and Bytes (allocates, then BytesInto). All three field backends.'),
 'C44': ('proved', 'Counts are exact for scalars; for points an upper bound, for all builds. C44_onto_refuted: not every point is reached.'),
 'C45': ('proved', 'Builds: field_radix51.go with field_mul64.go, field_radix51.go with field_amd64.s, field_generic.go. In the generic build the second operand of Add and the operand of multiplications has to satisfy a bound that all results except those of decoding do (C37 shows that it is needed).'),
 'C46': ('proved', 'For the methods listed in GoResults.v. A step is one assignment to a word or limb (scalars, limbs) or one call of the field backend (points), on sequentially consistent memory; Go guarantees that for programs without data races, and the writes show that there are none. In the generic build without RistrettoElligator2Inverse and FieldElement.Abs, which write an operand there.'),
 'C47': ('proved', 'Shifts, and conversions to signed types, as defined by GCC; C47_iso_shifts_refuted shows that ISO C11 alone is not enough.'),
 'C48': ('proved', ''),
 'C49': ('proved', 'C semantics as for C47.'),
 'C50': ('proved', 'C semantics as for C47. C50_same_decoder_refuted: group_ge_unpack accepts more than SetBytes.'),
 'C51': ('proved', 'C semantics as for C47. C51_base_unreduced_refuted: group_ge_scalarmult_base is wrong for some scalars that are not reduced; C51_base_unreduced says for which, and what the result is. group_ge_multiscalarmult: for a result that is not one of the operands.'),
 'C52': ('proved', 'C semantics as for C47. A field element is one memory cell for the functions above the field operations, so points overlap in whole field elements. C52_triple_overlap_refuted and C52_multi_overlap_refuted show the two calls for which overlap matters.'),
 'C53': ('proved', 'C53_scalarMult_refuted and C53_varTime_refuted have scalars above the bounds for which the multiple is wrong. In the generic build the second operand of Add has to satisfy the bound of C45.'),
 'C54': ('proved', 'C54_slide_1_refuted and C54_slide_large_refuted show the two cases in which the digits are wrong. The argument swindowsize has to be at most 31 (otherwise a shift is undefined); the statement about the model has no upper bound.'),
 'C55': ('proved', 'The RFC is transcribed in Rfc9496.v and tested on vectors of its appendix. C55_derive_rfc_refuted: Derive is not the derivation of the RFC (the documentation of DeriveDalek says so).'),
 'C56': ('proved', 'Between the 64-bit builds unconditionally; for the generic build when the decoded Point satisfies the bound of C45. C56_dh_generic_refuted: without that bound ScalarMult of a decoded Point is wrong for a concrete encoding and the scalar 3.'),
 'C57': ('proved', 'math/big Int.String, encoding/hex EncodeToString and fmt.Sprintf with %v are modelled in StringModel.v.'),
 'C58': ('proved', 'A failing random source (panic) is in C67.'),
 'C59': ('proved', 'Indices that are constants in the source are checked by the Go compiler and not modelled again. UnmarshalText panics: C34.'),
 'C60': ('proved', 'SHA-512 is transcribed from FIPS 180-4 (Sha512.v); that crypto/sha512 computes it is assumed. C60_agree_refuted: Derive and DeriveDalek differ on "test1".'),
 'C61': ('proved', 'The exceptions are part of the statement; C61_inverse_refuted has the input for which TestRistrettoElligator2Inverse fails. Tests on fixed vectors are evaluated by tools/kat.py instead.'),
 'C70': ('proved', 'The comment of elligator2Inverse (returns 0 if there is no preimage) is refuted for (0,1).'),
 'C69': ('proved', 'ConditionalSet with 0 and 1 only. String is left to C57; of the eight field elements of RistrettoElligator2Inverse the order is not seen; callers that write coordinates directly are not modelled.'),
 'C68': ('proved', 'ConditionalSet with 0 and 1 only. Callers that write limbs directly are not modelled.'),
 'C67': ('proved', 'All exported methods, with errors and recovered panics. ConditionalSet with 0 and 1 only. On the generic build for programs with [xtracks].'),
 'C66': ('proved', 'Without the hypothesis of C40 and C45 that a Point is set before it is used. On the generic build for programs with [tracks].'),
 'C65': ('proved', 'Upper bounds for the probability and the mean; the bound of 99.9 % for at most 80 undecodable inputs is not proved. C65_hashes says what is summed over.'),
 'C64': ('proved', 'The functions of the ideal machine exist: C64_same_machine.'),
 'C63': ('proved', 'C63_erase links the models with error values to those of C12, C32, C33 and C34.'),
 'C62': ('proved', 'C62_secret and C62_forgery are the consequences for a program that ignores the result of SetBytes.'),
 'C40': ('proved', '64-bit backend (radix 2^51); all builds: C45_history. The encodings are existentially quantified in C40_history.'),
}
thms = {}
for f in sorted(glob.glob(os.path.join(ROOT, 'rocq/theories/Prop*.v'))):
    for m in re.finditer(r'^Theorem ((C\d\d)_\w+)', open(f).read(), re.M):
        thms.setdefault(m.group(2), []).append(m.group(1))
claims = []
for c in sorted(STATUS):
    st, note = STATUS[c]
    ts = thms.get(c, [])
    assert ts or st == 'not_applicable', c
    claims.append({'property': c, 'status': st, 'theorems': ts, 'note': note})
for c in sorted(thms):
    if c not in STATUS: print('no status for', c)
json.dump({'claims': claims}, open(os.path.join(ROOT, 'MANIFEST.json'), 'w'), indent=1)
