# Formal model of go-ristretto in Coq: design and trusted base

The model and the proofs are in `rocq/theories` (logical name `Verif`, Coq 8.16.1, standard
library only).  The properties are in `properties.jsonl`; `MANIFEST.json` maps each to its
theorems.  Theorems named `Cnn_...` are in the files `Prop*.v`; these files hold statements,
`exact`, `Print Assumptions` and examples that meet the hypotheses, nothing else.

## Trusted base

1. **Coq's kernel** (8.16.1), including its virtual machine for `vm_compute`.  `vcheck` runs
   `coqchk`, which does not use the virtual machine, so that the result does not rest on it.
2. **Axioms: none.**  `Print Assumptions` prints "Closed under the global context" for every
   theorem of every `Prop*.v` file.  No axiom of the standard library is used (no functional
   extensionality, no classical logic, no primitive integers).  `vcheck` lists seven axioms of
   `Coq.ssr.ssrunder`; they are the module type of a standard library file that is loaded with
   the tactics, and no theorem depends on them.  There is no `Admitted`, no
   `Parameter`, no section-less `Variable`/`Hypothesis`, no functor or module type.
3. **The model is the code.**  That the definitions listed under "What is modelled" say what
   the Go source says is not proved; it can be checked line by line, since every definition
   cites the lines it models.  The straight-line arithmetic (scalars, limbs, assembly, tables)
   is not transcribed by hand but emitted by the scripts in `tools/`, which refuse anything
   they do not understand.  The scripts are convenience, not part of the trusted base: their
   output is in the repository and is readable.
4. **Go semantics assumed by the model.**  Fixed-width integers wrap (`Words.v`); `>>` on signed
   types is arithmetic; conversions truncate; evaluation is sequential; distinct local variables
   are distinct memory.  Array and slice indices are checked where they are not constants: the
   models of the loops that index by data return `None` for a panic.
5. **The specification.**  `Fp.v`, `Edwards.v`, `GroupOrder.v` (group), `RistrettoSpec.v`
   (encoding), `ElligatorSpec.v`/`ElligatorMath.v` (map of RFC 9496), `Rfc9496.v` (sections 4.1-4.3
   of the RFC, transcribed from memory, checked against vectors of its appendix and against the
   other specifications), `Sha256.v`, `Sha512.v` (FIPS 180-4),
   `TextCodec.v` (base64/hex), `ApiSpec.v` (ideal machine) are independent of the code; whether
   they say what the English property says is for the reader to judge.

## Layers

| layer | files | content |
|---|---|---|
| machine words | `Words.v`, `WordsTac.v`, `BitFold.v` | Go integers with wrap-around on `Z`; bounds calculus; branch-free bit tricks |
| number theory | `NumTheory.v`, `Digits*.v`, `DigitTables.v`, `PrimeCerts.v`, `Primes.v`, `Fp.v` | Fermat, Pocklington certificates for p and l, the field GF(p) |
| curve specification | `AbGroup.v`, `Edwards.v`, `GroupOrder.v`, `RistrettoSpec.v`, `ElligatorSpec.v`, `ElligatorMath.v` | complete twisted Edwards group, cyclic of order 8l; ristretto quotient; Elligator 2 |
| scalar code | `ScalarCode.v` (generated), `ScalarModel.v` | `scalar.go` |
| field code | `Fe51Code.v`, `Fe25Code.v` (generated), `FieldModel.v` | `field_radix51.go`, `field_mul64.go`, `field_generic.go`, `field.go` |
| assembly | `Amd64Model.v`, `Amd64Code.v` (generated), `Amd64Field.v`, `Amd64Trace.v` | `field_amd64.s`, `field_amd64.go` |
| curve code | `CurveModel.v`, `CheckedModel.v`, `BaseTable51.v`, `BaseTable25.v` (generated) | `curve.go`, `table.go`, `vartime.go`, `elligator.go`, `table_radix51.go`, `table_generic.go` |
| API | `RistrettoModel.v`, `TextCodec.v`, `ApiModel.v`, `ApiSpec.v`, `StringModel.v` | `ristretto.go`, text methods, sequences of calls, `String` methods, `elgamal_test.go` |
| pointers and traces | `GoLang.v`, `GoLimbCode.v`, `GoCurveCode.v`, `GoCodecCode.v`, `GoInverseCode.v` (generated), `GoLimbTests.v`, `GoViews.v`, `GoTrace.v`, `GoSecret.v`, `GoThreads.v`, `GoResults.v` | the same methods once more as programs on memory; threads |
| tests | `TestModel.v` | one iteration of each `*_test.go` test with random inputs |
| C reference code | `CLang.v`, `CrefFeCode.v`, `CrefCode.v`, `CrefInvert.v`, `CrefTable.v`, `CrefPtrCode.v` (generated), `CrefFe.v`, `CrefScalar.v`, `CrefMul.v`, `CrefPtr.v`, `CrefPtrMul.v`, `CrefLimbs.v`, `CrefSlide.v`, `CrefGo.v`, `CrefGoSpec.v` | `cref/cref.c`, `cref/cref.go` |
| proofs | `*Proofs.v`, `*Laws.v`, `*Facts.v`, `*51.v`, `*Gen.v`, `Backends.v`, `Generic25.v`, `GenMul.v`, `GoAlias*.v`, `GoScalarMult*.v`, `GoTable*.v`, `GoTraceFacts.v`, `GoPropCT.v`, `Go*Facts.v` | |
| results | `PropScalar.v` (C01-C10), `PropField.v` (C10-C15), `PropPoint.v` (C10, C16-C28, C35), `PropElligator.v` (C29-C32), `PropText.v` (C33, C34), `PropGeneric.v` (C36-C38), `PropAlias.v` (C39), `PropApi.v` (C40), `PropAsm.v` (C41), `PropCT.v` (C42), `PropSecret.v` (C43), `PropUniform.v` (C44), `PropBackends.v` (C45), `PropThreads.v` (C46), `PropCref.v` (C47, C49, C50), `PropCrefScalar.v` (C48), `PropCrefMul.v` (C51), `PropCrefPtr.v` (C52), `PropEdwards.v` (C53), `PropCrefSlide.v` (C54), `PropRfc.v` (C55), `PropBij.v` (C56), `PropString.v` (C57, C58), `PropChecked.v` (C59), `PropHash.v` (C60), `PropTests.v` (C61), `PropDegenerate.v` (C62), `PropError.v` (C63), `PropCrefGo.v` (C64), `PropLizard.v` (C65), `PropTotal.v` (C66), `PropFull.v` (C67), `PropFieldApi.v` (C68), `PropEdProg.v` (C69), `PropJacobi.v` (C70), `PropCode.v` (C42, C43: the programs are the methods) | |

The code above the limb arithmetic is written once over a record `FeOps` of field operations,
exactly as the Go package compiles `field.go`, `curve.go`, ... against one of several
`FieldElement` implementations selected by build tags.  `FeLaws` states what a backend has to
satisfy, and three backends do: `L51` (`field_radix51.go` with `field_mul64.go`), `L25`
(`field_generic.go`) and `LA` (`field_radix51.go` with the assembly).

A method with a pointer receiver is modelled as a function from the values of its arguments to
the new value of the receiver.  That this is right whatever pointers coincide is not assumed
but is property C39, on the second model of the same code (`Go*.v`), which has memory; the two
models are proved to agree (`link_*` lemmas).  The functions of `cref.c` are treated the same way:
values first, pointers in property C52.

## What is modelled

`tools/coverage.py` prints, for every function in the Go and assembly files, the definitions
that cite its lines.  Everything in `scalar.go`, `ristretto.go` and `edwards25519/*.go`,
`field_amd64.s` is modelled, with these exceptions:

* `Point.e`, `ScalarMultTable.t` (casts between two names of one type);
* `FieldElement.SetI/SetZero/SetOne/Set` have no definition of their own (the constants are used; as calls in `FieldApiModel.v`);
* error values are in `ErrorModel.v` only (C63); elsewhere `error` is modelled as failure.

The C reference implementation `cref/cref.c`, which the tests compare the Go code with, is modelled
except for the parts that are commented out.  Its straight-line
arithmetic is translated by `tools/c2coq.py` to programs with C's integer promotions and
conversions (`CLang.v`); signed overflow is undefined behaviour, and the theorems exclude it.  Left
shifts of negative numbers and those that overflow, right shifts of negative numbers and
conversions to signed types are as GCC and Clang define them.

The tests are modelled as far as C61 says; those with fixed vectors are evaluated outside the build by
`tools/kat.py` (`kat.jsonl`: 203 results for the three builds, all as in the test).

Not modelled at all: the benchmarks, `go.mod`; the Go compiler, assembler, runtime and hardware; timing, caches, and leakage other
than branches and addresses.

Simplifications, each also stated at the definition:

* `crypto/rand`: the bytes it returns are a universally quantified argument.  Its errors, on which
  `Rand` panics, are in `ApiFullModel.v` (C67) only.
* SHA-512 (`Derive`, `DeriveShort`, `DeriveDalek`): a universally quantified function with
  64-byte output.  SHA-256 (Lizard): likewise quantified wherever possible.  C60 and C32 instantiate
  them with the FIPS 180-4 functions of `Sha512.v` and `Sha256.v`; Go's `crypto/sha512` and
  `crypto/sha256` are assumed to compute these.
* `math/big.Int` is `Z` with `Mod`, `Bytes`, `SetBytes` as documented.
* `encoding/base64` (`RawURLEncoding`) and `encoding/hex`: `TextCodec.v` models their documented
  behaviour for the calls made, including the panic on a short destination.
* `crypto/subtle` and `math/bits` functions, `encoding/binary`: modelled by their documented
  meaning (`Words.v`, `BitFold.v`).
* loops that are not bounded syntactically have fuel; the theorems show that it suffices.
* assembly: 64-bit registers, the carry flag, 8-byte memory accesses at the addresses used;
  other flags, the stack and the calling convention are not modelled (in particular that
  `feMul` overwrites BP with a frame of size 0).
* traces (C42, C43): one event per read and write of a Go variable (block and index), per loop test
  and per branch, in source order, as translated by `tools/go2prog.py`, `go2imp.py` and `go2codec.py`;
  operations on integers in local variables are single events without control flow.  Register
  allocation, instruction selection and variable-time instructions are outside the model.

## How each property is proved

* C01, C05-C10 (scalars): word-level model with wrap-around; carries by linear arithmetic.
* C02, C03: straight-line int64 code; interval bounds show that no operation wraps, and the
  value modulo l is an invariant of each carry or fold.
* C04, C13: exponent of the addition chain computed symbolically; Fermat with certified primes.
* C11, C12: 128-bit accumulators, bounds; canonical reduction.
* C14, C15: fourth roots of unity; predicates through C12.
* C16, C17: field identities and completeness (d is not a square); associativity by explicit
  ideal cofactors.
* C18-C21: the digits of a recoding sum to the scalar; loops by induction with the group law;
  base table checked entry by entry against its predecessor.
* C22: |E| <= 2p and an element of order 8l exist, hence |E| = 8l and E is cyclic.
* C23, C35: from C16-C22.
* C24-C28: uniqueness of the canonical representative of a coset; encode computes it; decode
  inverts it.
* C29-C32: Jacobi quartic; preimages characterised exactly; Lizard.
* C33, C34: text codecs, panics included.
* C36, C37: bounds for the generic backend; the API as a state machine with a bound per
  variable.
* C38: state-passing model of predicates.
* C39: a language with memory, an analysis that accepts a program only if no argument cell is
  read after the receiver's cell of the same index was written, its soundness, and the link to
  the functional model.
* C40: refinement of the API to a machine over Z/l.
* C41: symbolic execution of the instruction list for arbitrary pointers.
* C42: traces of programs without data-dependent branches and indices are constant; the
  methods of each backend and the assembly likewise.
* C43: the same analysis on every program of `GoSecret.v`, by evaluation of a checker.
* C44: residues modulo l among the numbers below 2^512 and 2^253; C31 for Elligator.
* C45: the proofs of C16-C35 once more over `FeLaws`, instantiated with `L51`, `LA` and `L25`.
* C47: interval analysis of the translated programs (`CLangFacts.v`), values modulo p by `ring`.
* C48: loop invariants over the value of the arrays in base 256; digits as for C18.
* C49, C50: the identities of C16, C24-C28 and C29 on the C code.
* C51: as C18-C20; the table is checked entry by entry with the addition law, by computation.
* C52: the same functions on memory, translated once more; symbolic execution with arbitrary
  addresses, and for the field operations a check that no argument is read after the first write.
* C54: invariant of the loop over the digits done and the bits left; uniqueness of the form.
* C55: SQRT_RATIO_M1 by the fourth roots of unity; then the RFC's functions against the mathematical
  specifications of encoding and map, to which the code was already related.
* C56: from C22, C24-C28 and C45: the exponent of a class is unique modulo l.  The refutation for the generic
  build follows the digits of 3: fifty steps keep the neutral element whatever the table contains, and the last adds
  the third table entry, whose (X : Y) is computed (`GenMul.v`).
* C57: a decimal number ends at the first character that is not a digit; base64 and hexadecimal are injective.
* C58: the group law on the exponents, with C45 for each call.
* C59: `CheckedModel.v` has the functions with computed indices once more, with Go's bounds checks;
  each is shown to succeed and to give the result of the unchecked model.  So the default values that
  `nth` and `at_` return out of range are never used.
* C60: C03, C08 and C55 for the concrete hash; for the refutation, the second half of the hash of "test1" is
  not one of the preimages of the 4-torsion.
* C61: `TestModel.v` has one iteration of each test as a function of what it draws.  The tests that compare
  with the C code follow from C45 and C47-C51, the others from the properties of the methods they call.
* C62: the formulas with X = Y = T = 0 for one operand; for the multiplications a flag per step, whether a digit
  other than 0 has been seen, takes the place of the multiple in the proofs of C20 and C21.
* C63: `ErrorModel.v` repeats the decoders with positions; one induction follows both versions, and the description of
  the texts is exclusive and complete.  The bytes of a text come from an induction on groups of four characters.
* C64: `CrefGo.v` has the methods of `cref.go` as calls on one memory of field elements; C52 gives what each call
  changes, and the invariant of C40 with C curve points instead of Points does the rest.
* C65: the loop of `LizardInto` finds the indices where the buffer is the one that `SetLizard` makes of its middle bytes
  (`LizardProofs.loop_found`).  The own buffer of d is found once, so at most seven others matter, and they depend on d
  and its hash value only (`LizardChance.decoded_iff`).  `FiniteFunctions.v` has the list of all functions between
  two finite lists and sums over it; a sum of what depends on two arguments factors (`tot_two_args`), and the union
  bound gives the two inequalities.  The lists have 2^128 and 2^256 elements and are never computed.
* C66: `ApiTotalSpec.v` extends the machine of C40 by rules for Points that are not set. The states correspond as in C40, and the Points and
  tables without an exponent satisfy the invariants of C62. `frame` says which Points a call of the machine of C40 leaves unset; `blank_step_ok` does
  the calls where that machine stops, with the lemmas of C62. Lizard of such a Point is the new part (`DegenerateLizard.v`): the inverse square root
  is 0, the product XY is 0, so the code takes the branch of the 2-torsion points, and the quartic points are those of the identity.
* C67: `ApiFullModel.v` adds to the calls of C40 the methods that hash, read from `crypto/rand`, write and read texts and return errors,
  and lets the program go on after a panic. Each call is reduced to those of C66, to C60 (SHA-512), and to the readings of texts and
  errors of C63; an unset Point in `LizardInto` to `deg_lizard` of C66. With this the sequences contain every exported method of `Point`,
  `Scalar` and `ScalarMultTable`. `ConditionalSet` is called with 0 and 1 only.
* C68: `FieldApiModel.v` numbers the caller's variables, as `ApiModel.v` does for points.  The invariant of `FieldApiProofs.v` is that every
  variable is within two units; sums and differences of two such values have four, one more than `FeLaws` asks of a backend, so `Room` states
  what is needed of `Add`, `Sub` and of `BytesInto` after `sub`, and `Fe25Wide.v` proves `BytesInto` of the generic build on four units.
  `FieldApiSpec.v` is the calculator: integers in 0 .. p-1, with the roots as parameters that the theorem characterises.
* C69: `EdProgModel.v` has one family of variables for each type of the package.  The invariant of `EdProgProofs.v` is that a variable to which
  the machine of `EdProgSpec.v` gives `m` represents a curve point that differs from `m` times the base point by a point of order 1, 2 or 4
  (`dlog`), with the limb bounds of its type; ProjectivePoints have the bounds of ExtendedPoints (`rq`), since `SetExtended` copies the
  coordinates.  A JacobiPoint holds `m` if the curve point below it does (C70); what
  RistrettoElligator2Inverse reports is C30 (`EllGen.v`), asked for one field element at a time (`EInverse`).  The marks of `e_fit` follow the points that on the
  generic build may not be second operands.
* C70: the facts behind C29-C31 (`ElligatorSpec.v`, `ElligatorMath.v`), stated for the single functions and every build (`JacobiFacts.v`).
* C53: as C45, with the digits followed for every 32-byte scalar (`AllScalars.v`).
* C46: the set of variables a program names as destinations bounds its writes; a program depends
  only on its own variables; induction over the interleaving.

## Findings

1. C37 (generic builds): `Add` of a Point decoded by `SetBytes` can overflow `int32` and give a
   wrong sum; `C37_decoded_add_refuted` has a concrete encoding.  So can `ScalarMult`, whose table is
   filled by `Add`: `C56_dh_generic_refuted` has 3 P for the decoded P wrong, hence key agreement fails.
2. C34: `UnmarshalText` panics on base64 text with 44 or more characters.  C63: the offset in the error for a text with
   one character too many is that of the last character, which may be a newline; texts that differ in the last two
   bits of the last character, or in newlines, decode alike.
3. C31: at the identity one preimage of Elligator (the square root of i/d) is not reported.
4. C28: a failed `SetBytes` leaves (0,0,0,0) in the receiver, which `Equals` every point.  C62: sums and non-zero
   multiples of it behave in the same way, so a program that ignores the result of `SetBytes` accepts every
   Schnorr signature (`C62_forgery`).
5. C16: the base point of the library is the RFC 8032 base point plus a point of order 4 (the
   same ristretto element).
6. C38 (generic builds): `BytesInto` writes its receiver, so `IsNegativeI`, `IsNonZeroI`,
   `Lizard` and others do too.
7. C41: `feMul` overwrites BP although it declares a frame of size 0.
8. C39: `NielsPoint.Neg` with the receiver as argument gives a wrong point.
9. C47: `fe25519_mul` and `fe25519_pack` of `cref.c` shift negative numbers and into the sign bit,
   which ISO C11 leaves undefined.
10. C50: `group_ge_unpack` of `cref.c` accepts encodings with the top bit set or not reduced
   modulo p, which `SetBytes` rejects.
11. C51: `choose_t_aff` of `cref.c` selects the fourth multiple for the digit -4 only.  The last digit
   of `scalar_window3` can be +4 for scalars that are not reduced, and `group_ge_scalarmult_base` is
   then wrong.  The functions of `cref.c` that write scalars reduce them.
12. C52: `fe25519_triple(x, x)` of `cref.c` gives 4 x, and `group_ge_multiscalarmult` clears its result
   first, so that a result which is also one of the points loses it.
13. C53: the scalar multiplications of `edwards25519` take a `*[32]byte` but are right only up to a
   bound.  `ScalarMult` is right exactly up to 2^254 + 15 (2^250 - 1)/31: above, bit 255 is ignored and a
   highest digit above 16 counts as 0.  `ScalarMultTable.ScalarMult` is right exactly up to
   2^255 + 7 (2^252 - 1)/15, above which `ScalarMultTable.VarTimeScalarMult` panics with an index
   out of range.  `VarTimeScalarMult` may lose a carry above 2^255 (17 2^251 gives -15 2^251).
   The methods of `Point` pass reduced scalars, for which all are right.
14. C54: `scalar_slide` of `cref.c` gives wrong digits for a window of one bit, and may lose a carry for
   scalars of 2^255 and more.  Nothing calls it.
15. C61, about the tests: `TestRistrettoElligator2Inverse` fails for ten of the inputs that it can draw.
   The second comparison of `TestElligatorAndRistretto` repeats the first (`cBuf`, `goBuf` instead of
   `cBuf2`, `goBuf2`).  The second point of `TestToJacobiQuarticRistretto`, {1, 0, 1, 0}, is not on the
   curve (`C61_off`; the test passes nevertheless, evaluated with `vm_compute`).  `TestScalarMult` does not
   clear its buffer between iterations (harmless).  When `TestScInverse` or `TestFeInverse` draws 0,
   `ModInverse` leaves the number of the iteration before, and the test fails unless that is 0.
16. C44: `Point.Rand` and `Point.Derive` apply Elligator once and so do not reach every element of the group;
   16 B is never the result (`C44_sixteen`), in any build.  Of the multiples 2 B, ..., 2998 B (even factors) nine are
   missed, as expected if each of the eight candidates for a preimage fails with probability 1/2.
   The comment at `ristretto.go:118-119` has "approximately four" for the buffers per point; there are 2^256 buffers
   and l points, so the mean is about 16, or four field elements up to sign.
17. C65: the comment on `SetLizard` takes the number of undecodable inputs as binomially distributed.  It is not:
   if d collides with e, then e collides with d (`C65_not_alone`), so that undecodable inputs come in groups of two or more.
   With seven other preimages for each input, as the comment assumes, there are about Poisson(28) pairs; the
   chance of at most 40 pairs is then 0.988 and not 0.999.  (On average an input has fewer than seven
   others, so the conclusion of the comment may well be true.)  The exponent -125 - 2log(7) should
   be -125 + 2log(7).  The three buffers of `C65_specials` cannot be decoded at all: two are reported twice by
   `RistrettoElligator2Inverse`, and `LizardInto` then says "Multiple Lizard preimages"; the third is that of C31.
18. C70: the comment of `elligator2Inverse` ("Returns 1 if a preimage is found and 0 if none exists"; "If t=1, then sqrt(i*d) is the
   preimage") is wrong for (s, t) = (0, 1): `SetRistrettoElligator2` maps 0, sqrt(i*d) and sqrt(i/d), the three
   non-negative field elements with s = 0, to (0, -1), and nothing to (0, 1) (`C70_inverse_refuted`).  The inverse as a whole stays
   sound, since both points lie above the identity, and with this slot it reports two of the three.

## Tests of the theorems

`tools/mutate.py` applies an edit to the model in a scratch copy, rebuilds, and lists the
theorems that no longer check.  `seeded/LOG.jsonl` has one line per attempt.  A theorem that
survives although its claim became false is too weak; the field `tightened` says what was done.
`tools/automut.py` chooses edits at random instead: constants off by one, operators, comparisons,
variables and branches exchanged; these have ids that begin with `auto-`.  It stops at the first
property theorem that depends on a proof that broke.
