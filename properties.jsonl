{"id": "C01", "title": "Scalar Add/Sub/Neg are exact arithmetic mod l", "statement": "For all reduced scalars a, b (integer value < l): s.Add(a,b), s.Sub(a,b) and s.Neg(a) set s to exactly (a+b) mod l, (a-b) mod l and (-a) mod l, and the result is again reduced.", "quantifier": "all pairs of reduced scalars (about 2^504 pairs)", "why_tests_cant": "The carry, borrow and conditional-add-l paths are hit only on sparse inputs; 1000 random samples leave the boundary cases (0, l-1, sums equal to l, long carry chains) untested.", "anchors": ["scalar.go:Scalar.Add", "scalar.go:Scalar.Sub", "scalar.go:Scalar.Neg"]}
{"id": "C02", "title": "Scalar multiplication family is exact mod l for every 256-bit input", "statement": "For all scalars a, b, c held in eight 32-bit words, reduced or not: Mul, Square, MulAdd and MulSub produce exactly a*b, a*a, a*b+c and a*b-c modulo l as a reduced scalar; no intermediate int64 overflows.", "quantifier": "all values of up to three 256-bit word arrays", "why_tests_cant": "Overflow of one of several hundred int64 intermediates or a missing final reduction shows up for an unknown, possibly tiny, set of inputs.", "anchors": ["scalar.go:Scalar.Mul", "scalar.go:Scalar.Square", "scalar.go:Scalar.MulAdd", "scalar.go:Scalar.MulSub", "scalar.go:Scalar.reduceAfterMul"]}
{"id": "C03", "title": "SetReduced maps every 64-byte string to its value mod l", "statement": "For every 64-byte buffer t, s.SetReduced(t) sets s to the little-endian value of t modulo l, reduced. Hence Rand and Derive always yield reduced scalars whatever the random source or hash returns.", "quantifier": "all 2^512 buffers", "why_tests_cant": "Same as C02: a reduction error or overflow on a sparse set of inputs is invisible to sampling.", "anchors": ["scalar.go:Scalar.SetReduced", "scalar.go:Scalar.Rand", "scalar.go:Scalar.Derive"]}
{"id": "C04", "title": "Scalar Inverse is the multiplicative inverse", "statement": "For every scalar t not divisible by l, s.Inverse(t) satisfies s*t = 1 mod l; Inverse of 0 is 0; the result is reduced. Aliasing s and t is allowed.", "quantifier": "all scalars", "why_tests_cant": "The 200-step addition chain computes one fixed exponent; correctness for all t needs primality of l and the exact exponent, not samples.", "anchors": ["scalar.go:Scalar.Inverse"]}
{"id": "C05", "title": "Scalar SetBytes reduces modulo l after dropping the top three bits", "statement": "For every 32-byte buffer x, SetBytes sets s to (LE(x) mod 2^253) mod l, reduced; UnmarshalBinary on 32 bytes does the same and on any other length returns an error without changing s.", "quantifier": "all byte strings of every length", "why_tests_cant": "The branch on values in [l, 2^253) and the length check range over unbounded input.", "anchors": ["scalar.go:Scalar.SetBytes", "scalar.go:Scalar.UnmarshalBinary"]}
{"id": "C06", "title": "SetBytesStrict accepts exactly the canonical scalar encodings", "statement": "SetBytesStrict(x) returns true iff LE(x) < l; on true s has value LE(x); on false s is left unchanged.", "quantifier": "all 2^256 buffers and all previous values of s", "why_tests_cant": "Acceptance must be exact on the boundary l-1 / l and up to 2^256-1; tests probe a handful of values.", "anchors": ["scalar.go:Scalar.SetBytesStrict"]}
{"id": "C07", "title": "Scalar encodings round-trip and are injective", "statement": "For every reduced s: Bytes/BytesInto/MarshalBinary give 32 bytes with LE value s; SetBytes, SetBytesStrict and UnmarshalBinary of these bytes give back s; different reduced scalars have different encodings.", "quantifier": "all reduced scalars", "why_tests_cant": "Round trip over 2^252 values.", "anchors": ["scalar.go:Scalar.BytesInto", "scalar.go:Scalar.SetBytes", "scalar.go:Scalar.MarshalBinary"]}
{"id": "C08", "title": "Scalar integer conversions", "statement": "SetBigInt(x) sets s to x mod l for every integer x, negative ones and ones of any size included; BigInt returns the value; SetUint64(x) sets s to x; DeriveShort gives the 128-bit prefix of the hash; SetZero/SetOne/Set as named.", "quantifier": "all integers, all uint64, all hash functions", "why_tests_cant": "Unbounded domain.", "anchors": ["scalar.go:Scalar.SetBigInt", "scalar.go:Scalar.BigInt", "scalar.go:Scalar.SetUint64", "scalar.go:Scalar.DeriveShort"]}
{"id": "C09", "title": "Scalar comparisons are exact", "statement": "IsNonZeroI is 1 iff the words are not all zero; for reduced a, b Equals/EqualsI hold iff the values are equal.", "quantifier": "all scalars / pairs of reduced scalars", "why_tests_cant": "The OR-fold could lose one bit position; equality ranges over all pairs.", "anchors": ["scalar.go:Scalar.IsNonZeroI", "scalar.go:Scalar.EqualsI", "scalar.go:Scalar.Equals"]}
{"id": "C10", "title": "ConditionalSet selects exactly", "statement": "For b in {0,1}, p.ConditionalSet(q,b) leaves p unchanged if b=0 and makes p a copy of q if b=1, for Scalars, Points and field elements.", "quantifier": "all word values", "why_tests_cant": "Mask arithmetic must be right in every bit position of every word.", "anchors": ["scalar.go:Scalar.ConditionalSet", "ristretto.go:Point.ConditionalSet", "edwards25519/field_radix51.go:FieldElement.ConditionalSet"]}
{"id": "C11", "title": "Field multiplication, squaring and addition are exact mod 2^255-19", "statement": "For all field elements whose limbs are within the bounds the library ever produces, Mul, Square, DoubledSquare, Add, Sub, Neg (and the lazy add/sub) return limbs representing exactly the product, square, doubled square, sum, difference and negation mod p, with no 64- or 128-bit overflow, and again within bounds.", "quantifier": "all limb values within bounds, 64-bit backend", "why_tests_cant": "Limb overflow bugs are triggered by inputs with probability as low as 2^-60.", "anchors": ["edwards25519/field_mul64.go:FieldElement.Mul", "edwards25519/field_mul64.go:FieldElement.Square", "edwards25519/field_mul64.go:FieldElement.DoubledSquare", "edwards25519/field_radix51.go:FieldElement.sub", "edwards25519/field_radix51.go:FieldElement.Neg", "edwards25519/field_radix51.go:FieldElement.add"]}
{"id": "C12", "title": "Field encodings are canonical", "statement": "BytesInto always writes the unique little-endian encoding of the value in [0,p); SetBytes reads any 32 bytes as LE mod 2^255 mod p; the two are inverse; SetBigInt/BigInt agree.", "quantifier": "all limb representations, all 32-byte strings", "why_tests_cant": "Values in [p,2^255) and carry ripples occur with probability about 2^-250.", "anchors": ["edwards25519/field_radix51.go:FieldElement.BytesInto", "edwards25519/field_radix51.go:FieldElement.SetBytes", "edwards25519/field_radix51.go:FieldElement.setReduced"]}
{"id": "C13", "title": "Field inversion", "statement": "Inverse(a) is the multiplicative inverse for every nonzero a and 0 for 0.", "quantifier": "all field elements", "why_tests_cant": "Needs primality of p and an exact exponent.", "anchors": ["edwards25519/field.go:FieldElement.Inverse"]}
{"id": "C14", "title": "Field square roots", "statement": "InvSqrt(a)^2*a = 1 whenever a is a nonzero square; InvSqrtI returns 1 and 1/sqrt(a) iff a is a nonzero square, else 0 and 1/sqrt(i*a) (or 0 for a=0); Sqrt returns the nonnegative root of every square.", "quantifier": "all field elements", "why_tests_cant": "Correctness of all four cases of the fourth-root-of-unity table needs number theory.", "anchors": ["edwards25519/field.go:FieldElement.InvSqrt", "edwards25519/field.go:FieldElement.InvSqrtI", "edwards25519/field.go:FieldElement.Sqrt", "edwards25519/field.go:FieldElement.Exp22523"]}
{"id": "C15", "title": "Field predicates see the value, not the representation", "statement": "IsNegativeI, IsNonZeroI, IsOneI, EqualsI, Equals and Abs depend only on the residue mod p and return exactly its parity / non-zeroness / equality / absolute value.", "quantifier": "all limb representations", "why_tests_cant": "Non-canonical representations are rare in tests.", "anchors": ["edwards25519/field.go:FieldElement.IsNegativeI", "edwards25519/field.go:FieldElement.IsNonZeroI", "edwards25519/field.go:FieldElement.EqualsI", "edwards25519/field.go:FieldElement.Abs"]}
{"id": "C16", "title": "Point Add/Sub/Double/Neg implement the Edwards25519 group law for all inputs", "statement": "For all valid points p, q (any representation): Add, Sub, Double, Neg return a valid point representing p+q, p-q, 2p, -p, with no exceptional inputs (equal points, inverse points, identity, torsion all included).", "quantifier": "all pairs of points in all projective representations", "why_tests_cant": "Exceptional cases of addition formulas have negligible probability under random testing.", "anchors": ["ristretto.go:Point.Add", "ristretto.go:Point.Sub", "ristretto.go:Point.Double", "ristretto.go:Point.Neg", "edwards25519/curve.go:CompletedPoint.AddExtended", "edwards25519/curve.go:CompletedPoint.SubExtended", "edwards25519/curve.go:CompletedPoint.DoubleExtended", "edwards25519/curve.go:ExtendedPoint.SetCompleted"]}
{"id": "C17", "title": "Points form an abelian group under the API", "statement": "Up to Equals: Add is associative and commutative, SetZero is neutral, Neg is inverse, Sub(p,q)=Add(p,Neg q), Double(p)=Add(p,p); every operation respects Equals.", "quantifier": "all triples of points", "why_tests_cant": "Algebraic laws over an infinite-for-testing domain.", "anchors": ["ristretto.go:Point.Add", "ristretto.go:Point.Sub", "ristretto.go:Point.Neg", "ristretto.go:Point.SetZero", "ristretto.go:Point.Equals"]}
{"id": "C18", "title": "ScalarMult computes s*q", "statement": "For every valid point q and reduced scalar s, p.ScalarMult(q,s) represents the s-fold sum of q.", "quantifier": "all points and all scalars", "why_tests_cant": "Window recoding carries at top digits are rarely exercised.", "anchors": ["ristretto.go:Point.ScalarMult", "edwards25519/curve.go:ExtendedPoint.ScalarMult", "edwards25519/curve.go:computeScalarWindow5"]}
{"id": "C19", "title": "PublicScalarMult (variable time) computes s*q", "statement": "For every valid q and reduced s, p.PublicScalarMult(q,s) represents the s-fold sum of q, and the loop terminates with all table indices in range.", "quantifier": "all points and all scalars", "why_tests_cant": "w-NAF carries across 64-bit word boundaries and the top window are rare.", "anchors": ["ristretto.go:Point.PublicScalarMult", "edwards25519/vartime.go:ExtendedPoint.VarTimeScalarMult", "edwards25519/vartime.go:computeScalar5NAF"]}
{"id": "C20", "title": "Precomputed tables compute s*q", "statement": "After t.Compute(q), p.ScalarMultTable(t,s) and p.PublicScalarMultTable(t,s) both represent s*q for every reduced s.", "quantifier": "all points and all scalars", "why_tests_cant": "Signed-window recoding and table indexing over all scalars.", "anchors": ["ristretto.go:ScalarMultTable.Compute", "ristretto.go:Point.ScalarMultTable", "ristretto.go:Point.PublicScalarMultTable", "edwards25519/table.go"]}
{"id": "C21", "title": "Fixed-base multiplication computes s*B", "statement": "ScalarMultBase(s) and PublicScalarMultBase(s) represent s times the base point for every reduced s; each of the 256 table constants is the right multiple of B.", "quantifier": "all scalars", "why_tests_cant": "256 x 3 x 5 magic constants; a single wrong constant is hit only by some scalars.", "anchors": ["ristretto.go:Point.ScalarMultBase", "ristretto.go:Point.PublicScalarMultBase", "edwards25519/table_radix51.go:BaseScalarMultTable"]}
{"id": "C22", "title": "The group has prime order l generated by the base point", "statement": "Every valid point is Equals to k*B for exactly one k in [0,l); in particular l*p is zero for every point p and B is not zero.", "quantifier": "all points", "why_tests_cant": "Group order is a mathematical fact about all points.", "anchors": ["ristretto.go:package doc", "ristretto.go:Point.SetBase"]}
{"id": "C23", "title": "Scalars act as the field Z/l", "statement": "Up to Equals: ScalarMult(p,a+b)=ScalarMult(p,a)+ScalarMult(p,b), ScalarMult(p,a*b)=ScalarMult(ScalarMult(p,b),a), ScalarMult(p,1)=p, ScalarMult(p+q,a)=..., and multiplying by s then Inverse(s) gives back p for s != 0; where + and * are Scalar.Add and Scalar.Mul.", "quantifier": "all points and scalars", "why_tests_cant": "Needs l*p=0 for all p.", "anchors": ["ristretto.go:Point.ScalarMult", "scalar.go:Scalar.Add", "scalar.go:Scalar.Mul", "scalar.go:Scalar.Inverse"]}
{"id": "C24", "title": "Equals is equality of group elements", "statement": "p.Equals(q) iff p and q differ by a point of E[4]={(0,1),(0,-1),(i,0),(-i,0)}; it is an equivalence relation on valid points and does not depend on the projective representation.", "quantifier": "all pairs of valid points in all representations", "why_tests_cant": "Torsion and degenerate cases are not sampled.", "anchors": ["ristretto.go:Point.Equals", "ristretto.go:Point.EqualsI", "edwards25519/curve.go:ExtendedPoint.RistrettoEqualsI"]}
{"id": "C25", "title": "Equal points have equal encodings and vice versa", "statement": "For valid points p, q: Bytes(p)=Bytes(q) iff p.Equals(q), regardless of coset representative and projective representation.", "quantifier": "all pairs of valid points", "why_tests_cant": "All four coset representatives times all representations.", "anchors": ["ristretto.go:Point.Bytes", "ristretto.go:Point.BytesInto", "ristretto.go:Point.MarshalBinary", "edwards25519/curve.go:ExtendedPoint.RistrettoInto"]}
{"id": "C26", "title": "Decode after encode is the identity", "statement": "For every valid p, SetBytes(Bytes(p)) succeeds and gives a point Equals to p; same for UnmarshalBinary(MarshalBinary(p)).", "quantifier": "all valid points", "why_tests_cant": "Whole group.", "anchors": ["ristretto.go:Point.SetBytes", "ristretto.go:Point.UnmarshalBinary", "edwards25519/curve.go:ExtendedPoint.SetRistretto"]}
{"id": "C27", "title": "Only canonical encodings are accepted", "statement": "If SetBytes(b) returns true then the decoded point p is a valid group element and Bytes(p)=b; so SetBytes(b) is true iff b is the encoding of some point. UnmarshalBinary rejects every length other than 32.", "quantifier": "all byte strings", "why_tests_cant": "2^256 inputs with about 2^252 valid.", "anchors": ["ristretto.go:Point.SetBytes", "ristretto.go:Point.UnmarshalBinary"]}
{"id": "C28", "title": "Failed decode never leaves a usable point", "statement": "If SetBytes(b) returns false the receiver is all zeros, whatever it held before; the all-zero value (also that of an uninitialized Point) is not a valid point and Equals returns true when comparing it with anything.", "quantifier": "all rejected strings, all previous receivers, all comparison points", "why_tests_cant": "All inputs.", "anchors": ["ristretto.go:Point.SetBytes", "edwards25519/curve.go:ExtendedPoint.SetRistretto", "ristretto.go:Point.Equals"]}
{"id": "C29", "title": "SetElligator is total and yields valid points", "statement": "For every 32-byte buffer, SetElligator gives a valid group element; it ignores the top bit, sends f and -f to the same point and agrees with the Elligator map of the ristretto255 specification (RFC 9496, MAP). Hence Rand, Derive and DeriveDalek give valid points for every random source and hash.", "quantifier": "all 32-byte strings, all hash functions", "why_tests_cant": "Degenerate inputs (r0=0, r0^2=i*d, r0^2=i/d) have probability about 2^-250.", "anchors": ["ristretto.go:Point.SetElligator", "ristretto.go:Point.Derive", "ristretto.go:Point.DeriveDalek", "ristretto.go:Point.Rand", "edwards25519/elligator.go:CompletedPoint.SetRistrettoElligator2"]}
{"id": "C30", "title": "Elligator inverse is sound", "statement": "Every field element reported by RistrettoElligator2Inverse(p) is nonnegative and maps under Elligator to a point Equals to p; at most 8 are reported.", "quantifier": "all valid points", "why_tests_cant": "All points including the exceptional cosets.", "anchors": ["edwards25519/elligator.go:ExtendedPoint.RistrettoElligator2Inverse"]}
{"id": "C31", "title": "Elligator inverse is complete", "statement": "Every nonnegative field element that Elligator maps to a point Equals to p is reported by RistrettoElligator2Inverse(p).", "quantifier": "all valid points and all field elements", "why_tests_cant": "The identity coset has probability 2^-252.", "anchors": ["edwards25519/elligator.go:ExtendedPoint.RistrettoElligator2Inverse", "edwards25519/elligator.go:JacobiPoint.elligator2Inverse"]}
{"id": "C32", "title": "Lizard never decodes to wrong data", "statement": "If LizardInto(p) returns nil then SetLizard of the returned 16 bytes is Equals to p. After p.SetLizard(data), Lizard returns data, or reports Multiple preimages, which happens only if some other 16-byte string encodes to the same point.", "quantifier": "all points, all 2^128 data", "why_tests_cant": "Collisions have probability 2^-122.", "anchors": ["ristretto.go:Point.SetLizard", "ristretto.go:Point.LizardInto", "ristretto.go:Point.Lizard"]}
{"id": "C33", "title": "Text marshaling round-trips", "statement": "UnmarshalText(MarshalText(x)) succeeds and gives x back, for Points (up to Equals) and Scalars; String is the same text; hex of the encoding is accepted for Points.", "quantifier": "all points and reduced scalars", "why_tests_cant": "Whole group.", "anchors": ["ristretto.go:Point.MarshalText", "ristretto.go:Point.UnmarshalText", "ristretto.go:textToBuf", "scalar.go:Scalar.MarshalText", "scalar.go:Scalar.UnmarshalText"]}
{"id": "C34", "title": "UnmarshalText reports malformed text as an error", "statement": "For every byte string, Point.UnmarshalText and Scalar.UnmarshalText either set the receiver or return an error; they never panic.", "quantifier": "all byte strings of every length", "why_tests_cant": "Unbounded inputs.", "anchors": ["ristretto.go:textToBuf", "scalar.go:Scalar.UnmarshalText"]}
{"id": "C35", "title": "ElGamal example decrypts", "statement": "The README El'Gamal scheme returns the plaintext point for every key, nonce and plaintext.", "quantifier": "all keys, nonces, plaintexts", "why_tests_cant": "End-to-end algebra over all values.", "anchors": ["README.md", "ristretto.go:Point.ScalarMultBase", "ristretto.go:Point.PublicScalarMult", "ristretto.go:Point.Sub"]}
{"id": "C36", "title": "Generic (10-limb, int32) field backend is exact within its bounds", "statement": "With the forcegeneric build the field operations represent the same mathematical functions: for limbs within the documented bounds Mul, Square, DoubledSquare, add, sub, Neg, SetBytes and BytesInto are exact mod p without int32/int64 overflow.", "quantifier": "all limb values within bounds", "why_tests_cant": "Limb overflow.", "anchors": ["edwards25519/field_generic.go"]}
{"id": "C37", "title": "Generic backend gives the same group results as the 64-bit backend", "statement": "For every build tag choice the Point API returns the same encodings: in particular Add of a decoded point is right in the generic build.", "quantifier": "all points, all operation sequences", "why_tests_cant": "Depends on limb sizes that only some inputs reach.", "anchors": ["edwards25519/field_generic.go:FieldElement.BytesInto", "edwards25519/field_generic.go:FieldElement.Mul", "edwards25519/curve.go:ExtendedPoint.SetRistretto"]}
{"id": "C38", "title": "Read-only methods do not modify their receiver", "statement": "Bytes, Equals, Lizard, IsNegativeI, ... leave the memory of their operands unchanged, so that concurrent readers do not race.", "quantifier": "all values, all interleavings of readers", "why_tests_cant": "Races are schedule dependent.", "anchors": ["edwards25519/field_generic.go:FieldElement.BytesInto", "edwards25519/field_radix51.go:FieldElement.BytesInto"]}
{"id": "C39", "title": "Receivers may alias arguments", "statement": "For every aliasing pattern of receiver and arguments the result is the one for distinct variables, and arguments that are not the receiver are unchanged.", "quantifier": "all aliasing patterns and values", "why_tests_cant": "Tests cover few patterns.", "anchors": ["scalar.go:Scalar.Add", "scalar.go:Scalar.Sub", "scalar.go:Scalar.Mul", "edwards25519/field_radix51.go:FieldElement.add", "edwards25519/field_radix51.go:FieldElement.sub"]}
{"id": "C40", "title": "Any history of API calls behaves like Z/l", "statement": "For every finite sequence of API calls on initialized Points and Scalars, every observable result (Bytes, Equals, success flags, scalar values) is the one obtained by computing with exponents modulo l and an injective encoding.", "quantifier": "all operation sequences of any length", "why_tests_cant": "Unbounded histories.", "anchors": ["ristretto.go:Point", "scalar.go:Scalar"]}
{"id": "C41", "title": "amd64 assembly multiplication agrees with the Go code", "statement": "feMul and feSquare return limbs of the same residue as Mul and Square for all limbs in bounds.", "quantifier": "all limb values within bounds", "why_tests_cant": "Carry paths in assembly.", "anchors": ["edwards25519/field_amd64.s"]}
{"id": "C42", "title": "Secret-dependent control flow is absent from ScalarMult and table ScalarMult", "statement": "The sequence of branches and memory addresses of the non-Public multiplication methods does not depend on the scalar.", "quantifier": "all scalars", "why_tests_cant": "Requires comparing all pairs of executions.", "anchors": ["edwards25519/curve.go:ExtendedPoint.ScalarMult", "edwards25519/table.go:ScalarMultTable.selectPoint"]}
{"id": "C43", "title": "No method meant for secrets branches on data or uses data as an address", "statement": "For the methods of Point, ScalarMultTable and Scalar that are not named Public and do not hash or convert text or big integers, and for the field and curve arithmetic below them, the sequence of branches and memory addresses is the same for all values of receiver and arguments. SetBytesStrict, which returns a verdict, reveals the verdict and nothing else.", "quantifier": "all pairs of receivers and arguments, all field backends", "why_tests_cant": "Requires comparing all pairs of executions; a timing test sees only coarse differences on a few inputs.", "anchors": ["ristretto.go:Point", "scalar.go:Scalar", "edwards25519/curve.go", "edwards25519/field.go", "edwards25519/elligator.go", "edwards25519/table.go"]}
{"id": "C44", "title": "Scalars and points made from random bytes are close to uniform", "statement": "Every reduced scalar is SetReduced of 2^512/l, rounded down or up, 64-byte buffers (so Rand and Derive are uniform up to 2^-512 per scalar), and SetBytes of 16 or, for about 2^125 scalars, 8 buffers. No group element is SetElligator of more than 54 of the 2^256 buffers (so no element is more likely under Point.Rand than 54/2^256). Point.Rand and Derive do not reach every element: 16 B is the result for no buffer and no hash.", "quantifier": "all scalars, all points, all buffers", "why_tests_cant": "The number of preimages of a value cannot be sampled.", "anchors": ["scalar.go:Scalar.SetReduced", "scalar.go:Scalar.Rand", "scalar.go:Scalar.SetBytes", "ristretto.go:Point.SetElligator", "ristretto.go:Point.Rand"]}
{"id": "C45", "title": "The results on points hold for all three builds, and the builds interoperate", "statement": "Whether compiled for amd64, for another 64-bit machine or with the generic 32-bit backend, group operations, scalar multiplication, tables, equality, encoding, decoding, Elligator and Lizard compute the functions of the specification; an encoding made by one build is decoded by every other to the same group element. (Exception: operands of additions in the generic build that were decoded, C37.)", "quantifier": "all points, scalars and buffers, all pairs of builds", "why_tests_cant": "Continuous integration runs one build; limb sizes that overflow are rare.", "anchors": ["edwards25519/field_radix51.go", "edwards25519/field_mul64.go", "edwards25519/field_amd64.s", "edwards25519/field_generic.go", "ristretto.go:Point"]}
{"id": "C46", "title": "Methods write only their results, and calls that share only operands may run concurrently", "statement": "A method of Point, ScalarMultTable, Scalar or FieldElement writes no variable other than its results and its own locals. Hence any number of concurrent calls, none of which has a result that another one uses, end with the same results in every interleaving as when run one after the other. (In the generic build this fails for methods that test the sign of an operand, C38.)", "quantifier": "all values, all interleavings of any number of calls", "why_tests_cant": "Races are schedule dependent; the race detector sees only the accesses of one run.", "anchors": ["ristretto.go:Point", "scalar.go:Scalar", "edwards25519/curve.go", "edwards25519/table.go", "edwards25519/field_radix51.go", "edwards25519/field_generic.go"]}
{"id": "C47", "title": "The C reference implementation: field arithmetic", "statement": "For limbs within stated bounds the functions fe25519_* of cref.c (mul, square, square_double, add, sub, neg, cmov, pack, unpack, iszero, isone, iseq, isnegative, abs, invert, invsqrt, sqrt, invsqrti, sqrti) compute the named operations modulo p without signed overflow. (Taken by the letter of ISO C11, which leaves left shifts of negative numbers undefined, mul and pack do have undefined behaviour; GCC and Clang define these shifts.)", "quantifier": "all limbs within the bounds", "why_tests_cant": "Carry bugs and overflows occur on a vanishing fraction of inputs.", "anchors": ["cref/cref.c:fe25519_mul", "cref/cref.c:fe25519_square", "cref/cref.c:fe25519_pack", "cref/cref.c:fe25519_unpack", "cref/cref.c:fe25519_invsqrti"]}
{"id": "C48", "title": "The C reference implementation: scalars", "statement": "The functions group_scalar_* of cref.c (unpack, pack, add, sub, negate, mul, square, invert, the tests) compute modulo l; Barrett reduction of 64 bytes gives the exact residue. scalar_window3 and scalar_window5 give signed digits that represent the scalar, scalar_bitlen the number of bits, scalar_tstbit a bit. On reduced scalars, and on all strings for decoding, the results are the bytes that the Go code computes.", "quantifier": "all scalars, all byte strings", "why_tests_cant": "Barrett reduction is wrong, when it is wrong, on a vanishing fraction of inputs.", "anchors": ["cref/cref.c:group_scalar_add", "cref/cref.c:group_scalar_mul", "cref/cref.c:barrett_reduce", "cref/cref.c:group_scalar_invert", "cref/cref.c:scalar_window5", "cref/cref.c:scalar_from64bytes", "scalar.go:Scalar"]}
{"id": "C49", "title": "The C reference implementation: the group", "statement": "group_ge_add, group_ge_double, group_ge_negate compute the group law for all points, including equal, opposite and neutral ones. group_ge_equals compares modulo the four points of order dividing 4, and group_ge_isneutral tests 8 P = 0, which for doubles of points is the same as P representing the neutral element.", "quantifier": "all points", "why_tests_cant": "Exceptional cases of addition formulas are missed by random tests.", "anchors": ["cref/cref.c:group_ge_add", "cref/cref.c:group_ge_double", "cref/cref.c:group_ge_negate", "cref/cref.c:group_ge_equals", "cref/cref.c:group_ge_isneutral"]}
{"id": "C50", "title": "The C reference implementation and the Go code agree on encodings", "statement": "group_ge_pack of a point is Point.Bytes, on every build, of every Point with the same group element, and of no other. group_ge_unpack clears the top bit and reduces modulo p, and then accepts exactly what SetBytes accepts and represents the same curve point (so unlike SetBytes it accepts encodings that are not canonical). group_ge_elligator gives the element of SetElligator.", "quantifier": "all points, all 32-byte strings, all builds", "why_tests_cant": "A differential test finds only differences that are frequent.", "anchors": ["cref/cref.c:group_ge_pack", "cref/cref.c:group_ge_unpack", "cref/cref.c:group_ge_elligator", "ristretto.go:Point.BytesInto", "ristretto.go:Point.SetBytes", "ristretto.go:Point.SetElligator"]}
{"id": "C51", "title": "The C reference implementation: scalar multiplication", "statement": "group_ge_scalarmult gives the multiple of the point, group_ge_scalarmult_base that of the base point of RFC 8032 for every reduced scalar, and group_ge_multiscalarmult the sum of multiples; the literal table base_multiples.data holds the multiples it should. The encodings of the results are those that the Go code computes, on every build. (For scalars that are not reduced group_ge_scalarmult_base is wrong from (24 2^252 + 4) / 7 on: the last signed digit is then 4, and choose_t_aff looks for -4 only.)", "quantifier": "all points, all scalars below 2^254", "why_tests_cant": "A wrong entry among 425, or a missing digit, shows up only for particular scalars.", "anchors": ["cref/cref.c:group_ge_scalarmult", "cref/cref.c:group_ge_scalarmult_base", "cref/cref.c:group_ge_multiscalarmult", "cref/cref.c:choose_t", "cref/cref.c:choose_t_aff", "cref/base_multiples.data", "ristretto.go:Point.ScalarMult", "ristretto.go:Point.ScalarMultBase"]}
{"id": "C52", "title": "The C reference implementation: pointers that overlap", "statement": "Whatever pointers coincide or overlap, the field operations, group_ge_add, group_ge_double, group_ge_elligator, group_ge_scalarmult, group_ge_scalarmult_base, group_ge_equals, group_ge_isneutral and group_scalar_add give the result of C47-C51 for the values at the call, and nothing else that belongs to the caller changes; group_ge_negate too when the result is the argument or separate from it. (fe25519_triple with the result over the argument gives 4 x, and group_ge_multiscalarmult with the result over a point loses that point.)", "quantifier": "all memories, all addresses", "why_tests_cant": "A function that reads an argument after it has begun to write the result fails only for callers that reuse a variable.", "anchors": ["cref/cref.c:fe25519_mul", "cref/cref.c:fe25519_square", "cref/cref.c:fe25519_cmov", "cref/cref.c:fe25519_triple", "cref/cref.c:fe25519_invert", "cref/cref.c:group_ge_add", "cref/cref.c:group_ge_double", "cref/cref.c:group_ge_negate", "cref/cref.c:group_ge_equals", "cref/cref.c:group_ge_elligator", "cref/cref.c:group_ge_scalarmult", "cref/cref.c:group_ge_scalarmult_base", "cref/cref.c:group_ge_multiscalarmult", "cref/cref.c:group_scalar_add"]}
{"id": "C53", "title": "Package edwards25519 on all curve points and all scalars", "statement": "On every build the methods of ExtendedPoint, CompletedPoint, ProjectivePoint, NielsPoint and ScalarMultTable compute sums, differences, doubles, negatives, tables and conversions for all points of the curve, also those that are not doubles, and for every 32-byte scalar the multiple is determined: ScalarMult is right exactly up to 2^254 + 15 (2^250 - 1)/31, the table multiplication exactly up to 2^255 + 7 (2^252 - 1)/15, the variable time table multiplication panics above that, and VarTimeScalarMult is right below 2^255 and otherwise may be off by 2^256 times the point.", "quantifier": "all curve points, all 32-byte scalars", "why_tests_cant": "The exported functions of edwards25519 can be called with points and scalars that the ristretto package never passes.", "anchors": ["edwards25519/curve.go:ExtendedPoint.Add", "edwards25519/curve.go:ExtendedPoint.Sub", "edwards25519/curve.go:ExtendedPoint.Double", "edwards25519/curve.go:ExtendedPoint.Neg", "edwards25519/curve.go:ExtendedPoint.SetZero", "edwards25519/curve.go:CompletedPoint.AddExtended", "edwards25519/curve.go:CompletedPoint.SubExtended", "edwards25519/curve.go:CompletedPoint.AddExtendedNiels", "edwards25519/curve.go:CompletedPoint.SubExtendedNiels", "edwards25519/curve.go:CompletedPoint.DoubleExtended", "edwards25519/curve.go:CompletedPoint.DoubleProjective", "edwards25519/curve.go:ExtendedPoint.SetCompleted", "edwards25519/curve.go:ProjectivePoint.SetCompleted", "edwards25519/curve.go:NielsPoint.SetExtended", "edwards25519/curve.go:NielsPoint.Neg", "edwards25519/curve.go:NielsPoint.SetZero", "edwards25519/table.go:ScalarMultTable.Compute", "edwards25519/curve.go:ExtendedPoint.ScalarMult", "edwards25519/table.go:ScalarMultTable.ScalarMult", "edwards25519/table.go:ScalarMultTable.VarTimeScalarMult", "edwards25519/vartime.go:ExtendedPoint.VarTimeScalarMult"]}
{"id": "C54", "title": "The C reference implementation: sliding windows and the remaining functions", "statement": "scalar_slide writes the non-adjacent form of width w of the scalar for 2 <= w <= 7 and every scalar below 2^255; the Go function computeScalar5NAF writes the same digits for w = 5. For larger w the digits are odd, at most 127 and at least 7 apart. The wrappers of cref.c do what the functions they call do. (For w = 1 the digits are wrong, and from 2^255 on a carry may be lost.)", "quantifier": "all 32-byte scalars, w >= 2", "why_tests_cant": "A sliding window that loses a carry or leaves a digit out of range reads past a table of multiples.", "anchors": ["cref/cref.c:scalar_slide", "edwards25519/vartime.go:computeScalar5NAF", "cref/cref.c:fe25519_setone", "cref/cref.c:fe25519_setzero", "cref/cref.c:fe25519_iseq_vartime", "cref/cref.c:fe25519_getparity", "cref/cref.c:group_ge_add_publicinputs"]}
{"id": "C55", "title": "The package implements RFC 9496", "statement": "For every build: Bytes is ENCODE of RFC 9496, SetBytes and UnmarshalBinary accept exactly what DECODE accepts and give the same curve point, Equals is EQUALS, SetElligator is MAP, DeriveDalek is the element derivation applied to the hash, and the group operations are those of RFC 8032 on the coordinates; the base point encodes as the generator of the RFC. group_ge_pack, group_ge_unpack (after reduction of its input), group_ge_elligator and group_ge_scalarmult_base of cref.c do the same. (Derive is not the derivation of the RFC: it maps the first half of the hash only.)", "quantifier": "all points, all byte strings, all builds", "why_tests_cant": "Other implementations of ristretto255 have to understand the encodings written by this one, and conversely.", "anchors": ["ristretto.go:Point.Bytes", "ristretto.go:Point.BytesInto", "ristretto.go:Point.SetBytes", "ristretto.go:Point.UnmarshalBinary", "ristretto.go:Point.Equals", "ristretto.go:Point.SetElligator", "ristretto.go:Point.DeriveDalek", "ristretto.go:Point.Derive", "ristretto.go:Point.ScalarMultBase", "edwards25519/curve.go:ExtendedPoint.SetRistretto", "edwards25519/curve.go:ExtendedPoint.RistrettoInto", "edwards25519/elligator.go:CompletedPoint.SetRistrettoElligator2", "cref/cref.c:group_ge_pack", "cref/cref.c:group_ge_unpack", "cref/cref.c:group_ge_elligator"]}
{"id": "C56", "title": "The encodings form the group of scalars, in all builds and in the C code", "statement": "s -> Bytes(ScalarMultBase(s)) is a bijection between the Scalars 0, ..., l - 1 and the byte strings accepted by SetBytes, the same function in every build and in cref.c; exactly l strings are accepted. Under it Add, Sub, Neg and ScalarMult of Points are Add, Sub, Neg and Mul of Scalars, SetZero is 0 and SetBase is 1. Hence two parties on different builds that exchange Bytes(ScalarMultBase(s)) and Bytes(ScalarMultBase(t)), decode what they receive and multiply by their own Scalar obtain the same bytes, those of s t times the base point. (Generic builds: only if the decoded Point satisfies the bound of C45. Otherwise ScalarMult of a decoded Point can be wrong.)", "quantifier": "all scalars, all byte strings, all points, all pairs of builds", "why_tests_cant": "Key agreement and signature schemes rest on exactly this: equal keys give equal bytes, different keys different bytes, and both sides compute the same secret.", "anchors": ["ristretto.go:Point.ScalarMultBase", "ristretto.go:Point.ScalarMult", "ristretto.go:Point.Bytes", "ristretto.go:Point.SetBytes", "ristretto.go:Point.Add", "ristretto.go:Point.Sub", "ristretto.go:Point.Neg", "ristretto.go:Point.SetZero", "ristretto.go:Point.SetBase", "scalar.go:Scalar.Add", "scalar.go:Scalar.Sub", "scalar.go:Scalar.Neg", "scalar.go:Scalar.Mul", "edwards25519/curve.go:ExtendedPoint.ScalarMult", "cref/cref.c:group_ge_scalarmult_base", "cref/cref.c:group_ge_pack"]}
{"id": "C57", "title": "String determines the receiver", "statement": "FieldElement.String is the value modulo p in decimal without leading zeros. Point.String and Scalar.String have 43 characters for reduced receivers and are equal exactly for equal elements, whatever the coordinates and the build. ExtendedPoint.String and JacobiPoint.String are equal exactly when the printed coordinates are equal modulo p; equal CompletedPoint.String implies equal coordinates.", "quantifier": "all field elements within the limb bounds, all points, all reduced scalars, all pairs of builds", "why_tests_cant": "The strings are used as map keys and in logs and test vectors; two different elements must not look alike, and one element must not have two names.", "anchors": ["ristretto.go:Point.String", "scalar.go:Scalar.String", "edwards25519/field.go:FieldElement.String", "edwards25519/curve.go:ExtendedPoint.String", "edwards25519/curve.go:CompletedPoint.String", "edwards25519/elligator.go:JacobiPoint.String", "ristretto.go:Point.MarshalText", "scalar.go:Scalar.MarshalText", "edwards25519/field.go:FieldElement.BigInt"]}
{"id": "C58", "title": "El'Gamal encryption as in the documentation decrypts", "statement": "The Example of elgamal_test.go prints true in every build, whatever bytes the random source returns. More generally, decryption with the secret key inverts encryption for all keys, all randomness and all messages, in every build (in the generic build for messages that satisfy the bound of C45); and between 64-bit builds also when the public key and the ciphertext are sent as bytes and decoded.", "quantifier": "all random bytes, all scalars, all points, all pairs of 64-bit builds", "why_tests_cant": "This is how the documentation tells users to combine the methods; it exercises Rand, ScalarMultBase, PublicScalarMult, ScalarMult, Add, Sub and Bytes together.", "anchors": ["elgamal_test.go:Example", "ristretto.go:Point.Rand", "scalar.go:Scalar.Rand", "ristretto.go:Point.ScalarMultBase", "ristretto.go:Point.PublicScalarMult", "ristretto.go:Point.ScalarMult", "ristretto.go:Point.Add", "ristretto.go:Point.Sub", "ristretto.go:Point.Bytes", "ristretto.go:Point.SetBytes"]}
{"id": "C59", "title": "Array indices stay in range", "statement": "For all operands, valid or not, no computed array index and no slice is out of range in ScalarMult, VarTimeScalarMult, Compute and the multiplications with a table, the window and non-adjacent form computations, RistrettoElligator2Inverse, LizardInto, SetLizard, BigInt and SetBigInt, in every build; the one exception is VarTimeScalarMult with a table, which panics exactly for scalars above 2^255 + 7(2^252-1)/15.", "quantifier": "all limbs of points, tables and field elements; all 32-byte scalars; all builds", "why_tests_cant": "A panic in a library method is a denial of service; whether an index stays in range depends on the digits of the scalar, and the extreme digits occur for a tiny fraction of scalars.", "anchors": ["edwards25519/curve.go:computeScalarWindow5", "edwards25519/curve.go:ExtendedPoint.ScalarMult", "edwards25519/table.go:ScalarMultTable.Compute", "edwards25519/table.go:computeScalarWindow4", "edwards25519/table.go:ScalarMultTable.ScalarMult", "edwards25519/table.go:ScalarMultTable.VarTimeScalarMult", "edwards25519/table.go:ScalarMultTable.varTimeSelectPoint", "edwards25519/vartime.go:computeScalar5NAF", "edwards25519/vartime.go:ExtendedPoint.VarTimeScalarMult", "edwards25519/elligator.go:ExtendedPoint.RistrettoElligator2Inverse", "ristretto.go:Point.LizardInto", "ristretto.go:Point.SetLizard", "scalar.go:Scalar.BigInt", "scalar.go:Scalar.SetBigInt", "edwards25519/field.go:FieldElement.BigInt", "edwards25519/field.go:FieldElement.SetBigInt"]}
{"id": "C60", "title": "Derive and DeriveDalek with SHA-512", "statement": "With SHA-512 as the hash, Scalar.Derive is the little-endian value of the hash modulo l and DeriveShort that of its first 16 bytes; DeriveDalek is the element derivation of RFC 9496 applied to the hash; Point.Derive maps the first half of the hash only and agrees with DeriveDalek exactly when the second half maps to the identity.", "quantifier": "all messages; all builds", "why_tests_cant": "Derived points and scalars have to be the same in other implementations; Derive and DeriveDalek are easily confused.", "anchors": ["scalar.go:Scalar.Derive", "scalar.go:Scalar.DeriveShort", "ristretto.go:Point.Derive", "ristretto.go:Point.DeriveDalek"]}
{"id": "C61", "title": "The repository's randomized tests pass for every input", "statement": "Every iteration of the tests of scalar_test.go, field_test.go, constants_test.go, curve_test.go, elligator_test.go, table_test.go, vartime_test.go and ristretto_test.go that draws random inputs passes for every input it can draw, without panic and without undefined behaviour of the C code it compares with, with exactly these exceptions: TestRistrettoElligator2Inverse fails for the nine even numbers in [p, 2^255) and for the square root of i/d; TestScConditionalSet and TestConditionalSet fail when the two values coincide; TestLizardInjective fails when another 16-byte string has the same point.", "quantifier": "all random inputs; all builds", "why_tests_cant": "A test that passes on some inputs says nothing on the others; this states what the tests check, for all of them.", "anchors": ["scalar_test.go:TestScInverse", "edwards25519/field_test.go:TestFeSqrt", "edwards25519/constants_test.go:TestFeConstants", "edwards25519/curve_test.go:TestScalarMult", "edwards25519/elligator_test.go:TestRistrettoElligator2Inverse", "edwards25519/table_test.go:TestTableBaseScalarMult", "edwards25519/vartime_test.go:TestComputeScalar5NAF", "ristretto_test.go:TestLizardInjective"]}
{"id": "C62", "title": "A Point that has not been set absorbs everything", "statement": "The zero value of Point, and the receiver of a SetBytes that returned false, have X = Y = T = 0 and represent no point. Sums, differences, doubles, negatives and non-zero multiples with such an operand are of the same kind again; Equals of such a Point and any other is true; it is encoded like the identity. Multiplication with a ScalarMultTable that has not been set gives such Points, too, unless the scalar is 0. So with the result of SetBytes ignored a Diffie-Hellman secret is 32 zero bytes for every key, and the Schnorr equation s B = R + c A holds for all s, R and c other than 0.", "quantifier": "all such tuples, other operands and reduced scalars; all builds", "why_tests_cant": "SetBytes signals failure by a result that is easily ignored; what happens then is not documented.", "anchors": ["ristretto.go:Point.SetBytes", "ristretto.go:Point.Equals", "ristretto.go:Point.Add", "ristretto.go:Point.ScalarMult", "ristretto.go:Point.Bytes", "edwards25519/curve.go:SetRistretto", "edwards25519/curve.go:RistrettoEqualsI"]}
{"id": "C63", "title": "Which error is returned, and which bytes a text stands for", "statement": "UnmarshalBinary of a slice of n other than 32 bytes returns the error with n in it; Point.UnmarshalBinary of 32 bytes that no Point encodes to returns the second error. UnmarshalText, where it does not panic, returns CorruptInputError with offset i exactly if i is the index of the first character that is neither base64 nor a newline, or there is none, the number of base64 characters is 1 modulo 4 and i is the last index; the length error with n exactly if the text decodes to n bytes other than 32; nil exactly if the text is 43 base64 characters with any newlines, or for Points 64 hexadecimal digits, and for Points if a Point encodes to the bytes. The bytes are those of the number written in base 64 without its last two bits, or in base 16. LizardInto with SHA-256 returns nil, 'No Lizard preimage' or 'Multiple Lizard preimages' exactly when one, no or several 16-byte strings map to the Point.", "quantifier": "all texts, slices, receivers; all builds", "why_tests_cant": "Callers distinguish malformed from invalid input by the error; C12, C28 and C34 say only whether there is one.", "anchors": ["ristretto.go:Point.UnmarshalBinary", "ristretto.go:textToBuf", "ristretto.go:Point.UnmarshalText", "ristretto.go:Point.LizardInto", "scalar.go:Scalar.UnmarshalBinary", "scalar.go:Scalar.UnmarshalText"]}
{"id": "C64", "title": "Any program that uses the package cref computes what the Go code computes", "statement": "For every sequence of calls of the methods of Fe25519, GroupGe and GroupScalar on variables that start as zero, with arguments that may be the same variable and *Fe25519 arguments that may be coordinates of a GroupGe: if every GroupGe that is read has been set to a point (by Unpack with result 0, Elligator, Neg, Add, Double or ScalarMult, or by unpacking four coordinates of a point into it) and every Fe25519 that is read has been unpacked or is zero, then no call has undefined behaviour, and the values returned and bytes written are those of a machine that computes with exponents modulo l, encodes them as ScalarMultBase and Bytes do on every build, decodes canonical strings as SetBytes does, and hashes as SetElligator does. X, Y, Z, T are then extended coordinates of the point. The same machine describes the Go package.", "quantifier": "all programs, all numbers of variables; all builds of the Go code", "why_tests_cant": "The tests compare the two packages; C47-C52 are about single C functions.", "anchors": ["cref/cref.go:Fe25519.Unpack", "cref/cref.go:Fe25519.Pack", "cref/cref.go:GroupGe.Pack", "cref/cref.go:GroupGe.Unpack", "cref/cref.go:GroupGe.Elligator", "cref/cref.go:GroupGe.Neg", "cref/cref.go:GroupGe.Add", "cref/cref.go:GroupGe.Double", "cref/cref.go:GroupGe.ScalarMult", "cref/cref.go:GroupGe.X", "cref/cref.go:GroupScalar.Unpack", "cref/cref.go:GroupScalar.Pack"]}
{"id": "C65", "title": "Which inputs of SetLizard cannot be decoded, and how many", "statement": "Let H be any hash function with 32-byte results in place of SHA-256. For d and the value of H on d there are at most seven other buffers, with other middle bytes, such that Lizard fails to return d from SetLizard(d) if and only if one of those buffers is what SetLizard makes of its own middle bytes; one such check is passed by at most 2^131 of the 2^256 hash values. (This leaves out three buffers that Elligator maps to the identity: they are never decoded. SHA-256 does not produce them.) Over all hash functions, an input is undecodable for at most 7 in 2^125 of them, and the mean number of undecodable inputs is at most 56 + 3*2^-125. An undecodable input is never the only one, so the number of them is not binomially distributed as the comment says.", "quantifier": "all inputs of 16 bytes, all hash functions; all builds", "why_tests_cant": "The comment on SetLizard (chance 2^-122.19, lambda = 56); whoever encodes data with Lizard relies on it.", "anchors": ["ristretto.go:Point.SetLizard", "ristretto.go:Point.Lizard", "ristretto.go:Point.LizardInto", "edwards25519/elligator.go:ExtendedPoint.RistrettoElligator2Inverse"]}
{"id": "C66", "title": "Programs that use Points and tables that have not been set", "statement": "For every sequence of calls of the methods of Point, Scalar and ScalarMultTable on variables that start as zero values, with no condition on the order of the calls, the results are those of a machine that holds exponents modulo l and, for Points and tables that have not been set or whose decoding failed, a mark: sums, doubles, negatives, copies and tables of a marked Point are marked; its multiples are marked, except that the multiple by 0 is the identity; it is encoded as 32 zero bytes, equal to every Point, and Lizard of it is that of the identity. So no such program panics and the builds agree. On the generic build this is for programs that do not add or multiply decoded Points (see C37).", "quantifier": "all programs, all numbers of variables; all builds", "why_tests_cant": "C40 and C45 say nothing about programs that use a Point before it is set or after a failed SetBytes.", "anchors": ["ristretto.go:Point.SetBytes", "ristretto.go:Point.UnmarshalBinary", "ristretto.go:Point.Add", "ristretto.go:Point.Sub", "ristretto.go:Point.Double", "ristretto.go:Point.Neg", "ristretto.go:Point.ScalarMult", "ristretto.go:Point.PublicScalarMult", "ristretto.go:Point.Equals", "ristretto.go:Point.EqualsI", "ristretto.go:Point.ConditionalSet", "ristretto.go:Point.Bytes", "ristretto.go:Point.Lizard", "ristretto.go:ScalarMultTable.Compute", "ristretto.go:Point.ScalarMultTable"]}
{"id": "C67", "title": "Programs over all exported methods, with errors and panics", "statement": "For any sequence of calls of the exported methods of Point, Scalar and ScalarMultTable, from variables that hold the zero values of their types, where the caller recovers from panics and goes on: every result, error value, text and panic is that of a machine whose Points are integers modulo l. Derive maps the first half of the SHA-512 hash, DeriveDalek adds the images of both halves, Scalar.Derive reduces the hash modulo l, DeriveShort takes its first 16 bytes; Rand does the same with the bytes of crypto/rand and panics, without a change, if there are none; MarshalText and String write the 43 digits in base 64 of four times the encoding read as a big-endian number; UnmarshalBinary and UnmarshalText return the errors of C63, leave the receiver alone on a wrong size or character, and clear it if the bytes encode no Point; LizardInto returns the data if exactly one is mapped to the Point, leaves the buffer alone if none is, and otherwise returns another error. The calls that panic are Rand without random bytes and UnmarshalText on texts with 44 base64 characters; no others do. The builds give the same results.", "quantifier": "forall builds and programs; on the generic build for programs that do not add or multiply Points that came from a decoder or that Lizard was called on", "why_tests_cant": "C40 and C66 leave out the methods that hash, read random bytes, write texts or return errors. A program that mixes all of them must still see one consistent group, and must know which calls can panic.", "anchors": ["ristretto.go:Point.Derive", "ristretto.go:Point.DeriveDalek", "ristretto.go:Point.Rand", "ristretto.go:Point.SetElligator", "ristretto.go:Point.MarshalBinary", "ristretto.go:Point.MarshalText", "ristretto.go:Point.String", "ristretto.go:Point.UnmarshalBinary", "ristretto.go:Point.UnmarshalText", "ristretto.go:Point.LizardInto", "ristretto.go:Point.Lizard", "ristretto.go:Point.SetLizard", "ristretto.go:Point.SetBytes", "ristretto.go:Point.Bytes", "scalar.go:Scalar.Derive", "scalar.go:Scalar.DeriveShort", "scalar.go:Scalar.Rand", "scalar.go:Scalar.MarshalBinary", "scalar.go:Scalar.MarshalText", "scalar.go:Scalar.String", "scalar.go:Scalar.UnmarshalBinary", "scalar.go:Scalar.UnmarshalText", "scalar.go:Scalar.SetReduced", "scalar.go:Scalar.Bytes", "scalar.go:Scalar.BigInt"]}
{"id": "C68", "title": "Programs over FieldElement compute modulo 2^255-19", "statement": "Any sequence of calls of the exported methods of FieldElement (SetI, SetZero, SetOne, Set, SetBytes, SetBigInt, Add, Sub, Mul, Neg, Square, DoubledSquare, Inverse, Exp22523, Abs, InvSqrt, Sqrt, InvSqrtI, ConditionalSet, Bytes, BytesInto, BigInt, String, IsNegativeI, IsNonZeroI, IsOneI, EqualsI, Equals), in any order, with receivers that may also be arguments, from variables that have not been set, returns what a calculator on integers modulo p returns; on every build, for the same choice of roots. No sequence makes a limb overflow: every variable stays within twice the size of a product, also after BytesInto has rewritten its limbs.", "quantifier": "all programs, all numbers of variables; all builds", "why_tests_cant": "The limbs are not reduced between calls, and the bounds that the methods need are nowhere written down: a caller of the package can only rely on them if every order of calls respects them. With BytesInto of the generic build, Equals subtracts values of twice the usual size, which no other property covers.", "anchors": ["edwards25519/field.go:FieldElement.Add", "edwards25519/field.go:FieldElement.Sub", "edwards25519/field.go:FieldElement.Equals", "edwards25519/field.go:FieldElement.EqualsI", "edwards25519/field.go:FieldElement.IsOneI", "edwards25519/field.go:FieldElement.Sqrt", "edwards25519/field.go:FieldElement.Exp22523", "edwards25519/field.go:FieldElement.BigInt", "edwards25519/field.go:FieldElement.SetBigInt", "edwards25519/field_generic.go:FieldElement.BytesInto", "edwards25519/field_radix51.go:FieldElement.BytesInto", "edwards25519/field_amd64.go:FieldElement.Mul"]}
{"id": "C69", "title": "Programs over package edwards25519 compute in the integers modulo l", "statement": "Any sequence of calls of the exported methods of ExtendedPoint, CompletedPoint, ProjectivePoint, NielsPoint, JacobiPoint and ScalarMultTable (all but String), in any order, with receivers that may also be arguments, returns what a machine returns whose variables hold integers modulo l: SetRistretto succeeds exactly on the encodings, Ristretto gives the encoding of that multiple of the base point, RistrettoEqualsI compares the integers, the multiplications multiply by the integers of C53, ToJacobiQuarticRistretto, Dual and SetJacobiQuartic keep the integer, RistrettoElligator2Inverse reports exactly the non-negative field elements other than sqrt(i/d) that Elligator maps to the integer, and VarTimeScalarMult of a table panics exactly on scalars above 2^255 + 7(2^252-1)/15. The points of order 2 and 4 are invisible. Excluded: reading a variable before it is set, after SetRistretto has failed or after n.Neg(&n) (with which a program is given that sees the difference); and, on the generic build, points from SetRistretto, or on which ToJacobiQuarticRistretto or RistrettoElligator2Inverse has been called, as second operands.", "quantifier": "all programs, all numbers of variables, all 32-byte scalars; all builds", "why_tests_cant": "Package ristretto is a thin layer over these types; users of the inner package mix the coordinate systems freely, and each conversion has its own bounds on the limbs. The property says that no mixture of conversions, torsion points and out-of-range scalars is visible through the encoding, and pins down the exceptions.", "anchors": ["edwards25519/curve.go:ExtendedPoint.Add", "edwards25519/curve.go:ExtendedPoint.Sub", "edwards25519/curve.go:ExtendedPoint.SetCompleted", "edwards25519/curve.go:ExtendedPoint.SetRistretto", "edwards25519/curve.go:ExtendedPoint.Ristretto", "edwards25519/curve.go:ExtendedPoint.RistrettoEqualsI", "edwards25519/curve.go:ExtendedPoint.SetTorsion1", "edwards25519/curve.go:ProjectivePoint.SetExtended", "edwards25519/curve.go:CompletedPoint.DoubleProjective", "edwards25519/table.go:NielsPoint.Neg", "edwards25519/table.go:CompletedPoint.AddExtendedNiels", "edwards25519/table.go:ScalarMultTable.Compute", "edwards25519/table.go:ScalarMultTable.VarTimeScalarMult", "edwards25519/elligator.go:CompletedPoint.SetRistrettoElligator2", "edwards25519/elligator.go:ExtendedPoint.ToJacobiQuarticRistretto", "edwards25519/elligator.go:CompletedPoint.SetJacobiQuartic", "edwards25519/elligator.go:JacobiPoint.Dual", "edwards25519/elligator.go:ExtendedPoint.RistrettoElligator2Inverse"]}
{"id": "C70", "title": "The Jacobi quartic: conversion, dual, and the inverse of Elligator on one point", "statement": "SetJacobiQuartic maps every point (s, t) of the quartic t^2 = s^4 - 2(d-1)/(d+1) s^2 + 1 to the curve point (2s/(sqrt(-d-1) t), (1-s^2)/(1+s^2)), without a zero denominator, and that point is the double of another. Dual negates both coordinates and does not change the point below. Above every double other than (0,-1) lie exactly two points of the quartic, dual to each other, and above (0,-1) none. ToJacobiQuarticRistretto returns points above P, P+T2, P+T4' and P+T4 in this order; for P of order 1, 2 or 4 above (0,1), (0,1), (-i,0), (i,0). elligator2Inverse on (s, t) with s not 0 returns 1 and the only non-negative field element that Elligator maps to (s, t), or 0 if there is none; with s = 0 it returns 1 and a field element that is mapped to (0,-1), also for (0,1), to which nothing is mapped.", "quantifier": "all points of the quartic, all valid points; all builds", "why_tests_cant": "The comments of RistrettoElligator2Inverse and ToJacobiQuarticRistretto rest on these claims (two points above each representative, one exception at (0,-1), a preimage exactly if 1 is returned). C29-C31 only see their combination.", "anchors": ["edwards25519/elligator.go:CompletedPoint.SetJacobiQuartic", "edwards25519/elligator.go:JacobiPoint.Dual", "edwards25519/elligator.go:ExtendedPoint.ToJacobiQuarticRistretto", "edwards25519/elligator.go:JacobiPoint.elligator2Inverse"]}
