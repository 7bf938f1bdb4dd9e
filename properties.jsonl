{"id": "C01", "title": "Field addition, subtraction, negation and doubling are exact modular arithmetic", "statement": "For Fr and Fq, a+b, a-b, -a and a.double() return the canonical representative of the sum, difference, opposite and double of the represented residues modulo the field modulus; no carry, borrow or final subtraction is lost and the result is again fully reduced.", "quantifier": "all pairs of reduced 4x64-bit limb values (about 2^508 pairs) of each field", "why_tests_cant": "Carry chains fail only on a handful of limb patterns out of 2^508; random tests never visit the boundary cases.", "anchors": ["zkstd/src/arithmetic/limbs/bits_256/normal.rs: add, sub, double, neg", "zkstd/src/macros/field.rs: prime_field_operation", "zkstd/src/macros/field/group.rs"]}
{"id": "C02", "title": "Field multiplication and squaring are exact Montgomery products", "statement": "For Fr and Fq, a*b and a.square() return the reduced Montgomery representative of the product of the represented residues, every intermediate carry of the multiplication being kept. The expected a.square() = a*a is false: the squaring code drops one carry, and a.square() = a*a holds exactly for the inputs on which that carry is zero.", "quantifier": "all pairs of reduced limb values of each field, and (for the reduction itself) every 512-bit product smaller than p*2^256", "why_tests_cant": "A dropped carry in the Montgomery reduction shows up with probability about 2^-64 per random product.", "anchors": ["zkstd/src/arithmetic/limbs/bits_256/normal.rs: mul, square, mont", "zkstd/src/macros/field.rs"]}
{"id": "C03", "title": "Fr and Fq are fields: exactly the nonzero elements are invertible", "statement": "The moduli of Fr and Fq are prime; a.invert() is None exactly for a = 0 and otherwise Some(b), where a*b = 1 whenever no squaring performed by the inversion drops a carry (C02); then a/b is a times the inverse of b; a/b panics exactly when b = 0. Without the proviso the claim is false.", "quantifier": "all field elements of Fr and Fq", "why_tests_cant": "Primality of a 254-bit modulus and correctness of a 254-step exponentiation for all 2^254 elements cannot be sampled.", "anchors": ["zkstd/src/arithmetic/limbs/bits_256/normal.rs: invert, pow", "zkstd/src/arithmetic/limbs/bits_256/represent.rs: little_fermat", "zkstd/src/macros/field/group.rs: Div, invert", "bn254/src/fr.rs", "bn254/src/fq.rs"]}
{"id": "C04", "title": "Integers enter the field reduced modulo p", "statement": "from_u64, to_mont_form, from_bytes_wide, from_u512 and from_hash yield the field element of the given integer modulo p, for every input including values above p; the result is reduced.", "quantifier": "all u64 values, all 4-limb values, all 64-byte inputs", "why_tests_cant": "Wide reduction must be right on 2^512 inputs; the interesting ones are just above multiples of p.", "anchors": ["zkstd/src/arithmetic/limbs/bits_256/represent.rs: from_u64, from_u512, to_mont_form", "zkstd/src/macros/field.rs: from_bytes_wide, from_hash"]}
{"id": "C05", "title": "Field byte encoding is a canonical bijection", "statement": "to_bytes yields the 32-byte little-endian encoding of the canonical integer; from_bytes accepts exactly the byte strings encoding integers below p, and the two functions are mutually inverse, so every element has exactly one encoding.", "quantifier": "all field elements and all 32-byte strings", "why_tests_cant": "Acceptance of one of the 2^256-p non-canonical strings would make encodings malleable; tests decode only what they encoded.", "anchors": ["bn254/src/fr.rs: to_bytes, from_bytes", "bn254/src/fq.rs: to_bytes, from_bytes"]}
{"id": "C06", "title": "Exponentiation returns the power", "statement": "pow, pow_of_2 and pow_vartime return the field power for every base and every exponent (including exponent 0, base 0, 0^0 = 1) provided no squaring on the way drops a carry (C02); without the proviso the claim is false.", "quantifier": "all bases, all 64-bit (pow), 256-bit (limb pow, pow_vartime) exponents", "why_tests_cant": "Square-and-multiply must be right for every bit pattern of a 256-bit exponent.", "anchors": ["zkstd/src/arithmetic/limbs/bits_256/normal.rs: pow", "zkstd/src/macros/field.rs: pow, pow_of_2", "bn254/src/fr.rs: pow_vartime"]}
{"id": "C07", "title": "Bit decomposition returns the 256 big-endian bits of the canonical integer", "statement": "to_bits returns 256 values in {0,1}, most significant first, whose weighted sum is the canonical integer of the element (not of its Montgomery form); to_costomized_repr returns its base-4 digits.", "quantifier": "all field elements", "why_tests_cant": "Each of 2^254 values must decompose correctly.", "anchors": ["zkstd/src/arithmetic/limbs/bits_256/represent.rs: to_bits", "zkstd/src/macros/field.rs: to_bits", "bn254/src/fr.rs: to_costomized_repr"]}
{"id": "C08", "title": "Signed-digit recoding is a correct non-adjacent form", "statement": "to_nafs returns digits in {-1,0,1}, most significant first, without leading zero, whose value is the canonical integer and in which no two adjacent digits are nonzero.", "quantifier": "all field elements (all 256-bit integers for the limb function)", "why_tests_cant": "A carry slip at the top of the 258-bit window affects only huge scalars.", "anchors": ["zkstd/src/arithmetic/limbs/bits_256/represent.rs: to_nafs", "zkstd/src/arithmetic/utils.rs: Naf"]}
{"id": "C09", "title": "Field comparison is a total order consistent with equality (but is not the order of integers)", "statement": "The Ord/PartialOrd of field elements is a total order consistent with ==. The expected stronger reading - that a < b iff the canonical integer of a is below that of b - is false: the comparison is of Montgomery limbs.", "quantifier": "all triples of field elements", "why_tests_cant": "Order laws quantify over all triples; the discrepancy with integer order needs a proof for what remains true.", "anchors": ["zkstd/src/macros/field/ring.rs: PartialOrd, Ord"]}
{"id": "C10", "title": "Fr <-> Fq conversion reduces the canonical integer", "statement": "Fq::from(Fr) and Fr::from(Fq) keep the canonical integer modulo the target modulus; Fr -> Fq -> Fr is the identity on all of Fr, Fq -> Fr -> Fq is the identity exactly on integers below r and loses information on the others.", "quantifier": "all elements of both fields", "why_tests_cant": "The failing set has density about 2^-126; the repository's random test passes by luck.", "anchors": ["bn254/src/fr.rs: From<Fq>", "bn254/src/fq.rs: From<Fr>"]}
{"id": "C11", "title": "Square roots, when squarings are exact: Some(s) means s*s = a, None means a is not a square", "statement": "When no square() in the run loses a carry (the exact condition of C02), Fq::sqrt and Fr::sqrt return Some(s) with s^2 = a if a is a square, and None otherwise. Without that proviso, an answer Some(s) always satisfies s.square() == a, and s is a square root of a exactly when squaring s itself loses no carry; the property for every element is false in both fields: there are squares for which sqrt returns no square root.", "quantifier": "all field elements", "why_tests_cant": "Half of 2^254 elements are non-squares and the 2-adic tower of Fr has 28 levels.", "anchors": ["bn254/src/fq.rs: sqrt", "bn254/src/fr.rs: sqrt"]}
{"id": "C12", "title": "Sign convention: exactly one of y, -y is lexicographically largest", "statement": "Fq::lexicographically_largest(a) holds iff the canonical integer of a exceeds (p-1)/2; for a != 0 exactly one of a and -a has it; for 0 it is false. The same holds on Fq2, decided by the u-coefficient unless it is zero.", "quantifier": "all elements of Fq and Fq2", "why_tests_cant": "Boundary at (p-1)/2 is a single value among 2^254.", "anchors": ["bn254/src/fq.rs: lexicographically_largest"]}
{"id": "C13", "title": "By-reference field operators agree with the by-value operators", "statement": "For prime fields every by-reference and assigning form of +,-,*,/ returns the same value as the by-value form. For the extension fields the by-reference forms do not: reference subtraction multiplies and reference multiplication adds.", "quantifier": "all operand pairs and all operator forms", "why_tests_cant": "The operator matrix is generated by macros and only a few forms are exercised.", "anchors": ["zkstd/src/macros/field/group.rs", "zkstd/src/macros/field/ring.rs", "zkstd/src/macros/extension_field/group.rs"]}
{"id": "C14", "title": "Fq2, Fq6, Fq12 arithmetic is arithmetic in the quotient rings", "statement": "Addition, subtraction, negation, multiplication, squaring and multiplication by the non-residue in Fq2 = Fq[u]/(u^2+1), Fq6 = Fq2[v]/(v^3-(9+u)), Fq12 = Fq6[w]/(w^2-v) compute the quotient-ring operations (squaring: when the base-field squarings are exact, C02); these rings are commutative rings.", "quantifier": "all pairs of extension field elements", "why_tests_cant": "Karatsuba-style formulas must be identities in all coordinates, not at sample points.", "anchors": ["bn254/src/fqn.rs", "zkstd/src/macros/extension_field.rs"]}
{"id": "C15", "title": "Extension fields are fields: inversion is total on nonzero elements", "statement": "invert on Fq2, Fq6 and Fq12 returns None exactly on zero and otherwise the inverse (the norms never vanish on nonzero elements), base-field squaring and inversion being exact (C02, C03).", "quantifier": "all elements of Fq2, Fq6, Fq12", "why_tests_cant": "Vanishing of a norm for some nonzero element out of 2^3048 cannot be excluded by tests.", "anchors": ["bn254/src/fqn.rs: invert"]}
{"id": "C16", "title": "Sparse multiplications used by the Miller loop equal full multiplications", "statement": "mul_by_1, mul_by_01 on Fq6 and mul_by_034 on Fq12 equal the full product with the element having the given coefficients and zeros elsewhere.", "quantifier": "all elements and all sparse coefficients", "why_tests_cant": "Identity over all coordinates.", "anchors": ["bn254/src/fqn.rs: mul_by_1, mul_by_01, mul_by_034"]}
{"id": "C17", "title": "Frobenius maps are p-power maps", "statement": "frobenius_map (and frobenius_maps(k)) on Fq2, Fq6, Fq12 equals raising to the p-th (p^k-th) power for every element; the coefficient tables are the right powers of the non-residue.", "quantifier": "all elements of each extension field, all powers used", "why_tests_cant": "x^p with a 254-bit p for all x is beyond sampling; tables have 50+ constants.", "anchors": ["bn254/src/fqn.rs: frobenius_map, frobenius_maps", "bn254/src/params.rs: FROBENIUS_COEFF_*"]}
{"id": "C18", "title": "Weierstrass addition and doubling implement the chord-and-tangent group law", "statement": "For points on the curve, affine+affine, affine+projective, projective+projective, doubling, negation and subtraction return a representative of the chord-and-tangent sum, including all exceptional cases (identity operands, P+P, P+(-P)); the result is on the curve. One case is false of the code: double() of the affine identity is a finite point.", "quantifier": "all pairs of points in all representations, over every field of characteristic not 2 or 3 and in particular BN254 G1, G2 and Grumpkin", "why_tests_cant": "Exceptional-case bugs occur on a measure-zero set of pairs.", "anchors": ["zkstd/src/arithmetic/points/weierstrass.rs: add_affine_point, double_affine_point, add_mixed_point, add_projective_point, double_projective_point", "zkstd/src/macros/curve/weierstrass/group.rs: is_on_curve"]}
{"id": "C19", "title": "Point equality and coordinate conversion are coherent", "statement": "Projective == is an equivalence relation, holds iff the affine points coincide; to_affine(to_extended(P)) = P, to_extended(to_affine(Q)) == Q; is_identity and is_on_curve are invariant under ==; invert negates every point except the identity, for which it returns None.", "quantifier": "all points and representations", "why_tests_cant": "Every rescaling of every point.", "anchors": ["zkstd/src/macros/curve/weierstrass.rs: to_extended, to_affine", "zkstd/src/macros/curve/weierstrass/group.rs: PartialEq, is_on_curve"]}
{"id": "C20", "title": "The points form a commutative group", "statement": "On curve points + is commutative, associative, has the identity and inverses (up to ==).", "quantifier": "all triples of points", "why_tests_cant": "Associativity quantifies over all triples and needs the full case analysis.", "anchors": ["zkstd/src/arithmetic/points/weierstrass.rs", "zkstd/src/macros/curve/weierstrass/group.rs: is_on_curve"]}
{"id": "C21", "title": "Scalar multiplication is k-fold addition", "statement": "P * k is the k-fold sum of P for the canonical integer k of the scalar, for every curve point and every scalar (0 gives the identity); hence it is additive in the scalar's integer.", "quantifier": "all points and all scalars", "why_tests_cant": "2^254 scalars, each a different signed-digit pattern.", "anchors": ["zkstd/src/arithmetic/points/weierstrass.rs: scalar_point", "zkstd/src/macros/curve.rs"]}
{"id": "C22", "title": "By-reference and mixed curve operators agree with the by-value ones", "statement": "Every by-reference form of + and - between affine and projective points returns the same point as the by-value form - false for reference subtraction of a projective point from an affine one, which adds.", "quantifier": "all operator forms and all points", "why_tests_cant": "Operator matrix generated by macros.", "anchors": ["zkstd/src/macros/curve.rs: mixed_curve_operations, curve_arithmetic_extension"]}
{"id": "C23", "title": "Twisted Edwards operations implement the Edwards group law", "statement": "Affine, mixed and extended addition and doubling of twisted Edwards points compute the Edwards addition law with consistent T coordinate, with no exceptional case when d is a non-square; scalar multiplication by a field element iterates it. Equality, the identity test, conversions and negation agree with the point represented. Three things one would expect fail: subtracting an extended from an affine point through references adds it; is_on_curve accepts every affine point with x = 0 and every extended point with z = 0; invert of an affine point answers None for the identity and the point (0,-1), which are their own inverses.", "quantifier": "all curves -x^2+y^2=1+dx^2y^2 with -1 a square and d a non-square in odd characteristic, all points and scalars", "why_tests_cant": "Completeness is an algebraic statement over all points.", "anchors": ["zkstd/src/arithmetic/points/edwards.rs", "zkstd/src/macros/curve/edwards/group.rs"]}
{"id": "C24", "title": "Multi-scalar multiplication equals the sum of scalar multiples", "statement": "msm_curve_addition(bases, scalars) equals the sum of coefficients times bases over the common prefix, for all lengths (including empty), window sizes chosen by the length, and coefficients.", "quantifier": "all lists of bases and scalars", "why_tests_cant": "Window size, bucket boundaries and leading segments depend on the length and on every scalar bit.", "anchors": ["groth16/src/msm.rs: msm_curve_addition, get_at, Bucket"]}
{"id": "C25", "title": "Point encodings round-trip", "statement": "from_slice_unchecked(to_raw_bytes(p)) = p for every point p, and the raw encoding is 97 bytes. One would expect decoding to reject what is not the encoding of a curve point; that is false: every byte string of 64 bytes or more is decoded (its first 64 bytes as limbs, infinite iff byte 96 is 1), including points off the curve, unreduced coordinates and strings no point encodes to.", "quantifier": "all points and all byte strings", "why_tests_cant": "All 2^776 raw strings.", "anchors": ["bn254/src/g1.rs", "grumpkin/src/curve.rs"]}
{"id": "C26", "title": "Polynomial operations", "statement": "Coefficients::new trims trailing zeros; evaluate is the polynomial value; divide by (X - b) returns q with p(X) = (X-b) q(X) + p(b); + and scalar * are pointwise; - is the difference - which is false of the code when the left operand is not longer than the right one (sign swapped).", "quantifier": "all coefficient vectors and points", "why_tests_cant": "All degrees and coefficient patterns.", "anchors": ["groth16/src/poly.rs: Coefficients"]}
{"id": "C27", "title": "FFT computes evaluations and the inverse FFT interpolates", "statement": "For every k in the supported range, dft of n = 2^k coefficients returns the evaluations at all n-th roots of unity in order, idft is its inverse, and the coset versions evaluate/interpolate on the shifted coset.", "quantifier": "all sizes 2^k (k=1..28) and all coefficient vectors", "why_tests_cant": "Recursion over all sizes, bit-reversal permutations and all inputs.", "anchors": ["groth16/src/fft.rs: Fft::new, dft, idft, coset_dft, coset_idft, classic_fft_arithmetic"]}
{"id": "C28", "title": "Linear-combination rows evaluate linearly", "statement": "For rows in which no wire occurs twice, evaluation of a+b, a-b, -a and a*c is the sum, difference, opposite and multiple of the evaluations and the result again has no repeated wire; with repeated wires a+b is wrong.", "quantifier": "all rows, assignments", "why_tests_cant": "Wire overlap patterns are unbounded.", "anchors": ["zkstd/src/matrix/row.rs: SparseRow"]}
{"id": "C29", "title": "R1CS satisfaction is the conjunction of all gate equations", "statement": "is_sat() holds iff for every appended constraint <A,z>*<B,z> = <C,z>; mul_gate/add_gate/sub_gate/equal_gate append exactly the equation they name and leave earlier constraints alone; evaluate() agrees with the matrix product; z_vectors is the transpose.", "quantifier": "all constraint systems, assignments, gate sequences", "why_tests_cant": "Any number of constraints and any assignment.", "anchors": ["zkstd/src/r1cs.rs", "zkstd/src/matrix.rs"]}
{"id": "C30", "title": "Arithmetic gadgets are complete", "statement": "Running any gadget (field add/mul/square, select, equality, bit decomposition, range check, point add/double/scalar multiplication, hash) on honest values leaves a satisfied constraint system satisfied, never alters earlier wires, and returns the specified value.", "quantifier": "all input values and all prior constraint systems", "why_tests_cant": "Every witness value and composition history.", "anchors": ["zkstd/src/circuit/gadget/field.rs", "zkstd/src/circuit/gadget/binary.rs", "zkstd/src/circuit/gadget/curve.rs"]}
{"id": "C31", "title": "Multiplication, addition, selection, equality enforcement and range checks are sound", "statement": "In every assignment (chosen by an adversary) satisfying the appended constraints, the output wire of mul/add/conditional_select has the specified value, enforce_eq forces equality, enforce_eq_bits forces recomposition, and range_check forces each bit boolean and the encoded integer at most the bound.", "quantifier": "all satisfying assignments, not only honest ones", "why_tests_cant": "Soundness quantifies over all malicious witnesses.", "anchors": ["zkstd/src/circuit/gadget/field.rs: mul, add, enforce_eq, enforce_eq_bits, conditional_select, range_check"]}
{"id": "C32", "title": "Boolean, equality-test, public-input and bit-decomposition gadgets bind their outputs (refuted)", "statement": "A user expects: in every satisfying assignment BinaryAssignment::witness/not/and are boolean and compute not/and, is_eq/is_neq return the truth value of the comparison, inputize equals its argument, to_bits recomposes to its argument, scalar_point multiplies by its scalar. Each of these is false: satisfying assignments with wrong outputs exist.", "quantifier": "existential over satisfying assignments", "why_tests_cant": "Tests only run the honest prover.", "anchors": ["zkstd/src/circuit/gadget/binary.rs", "zkstd/src/circuit/gadget/field.rs: inputize, is_eq, is_neq, to_bits", "zkstd/src/circuit/gadget/curve.rs: scalar_point, descale"]}
{"id": "C33", "title": "In-circuit point arithmetic agrees with native point arithmetic", "statement": "The in-circuit add, double, select_identity, conditional_select, descale and scalar_point on honest values represent the same point as the native operations (complete formulas, including identity and doubling cases).", "quantifier": "all points and scalars", "why_tests_cant": "All exceptional pairs.", "anchors": ["zkstd/src/circuit/gadget/curve.rs"]}
{"id": "C34", "title": "Groth16 completeness", "statement": "If the constraint system is satisfied, a proof created with keys from setup verifies on its public inputs, for every randomness. This holds when the number of constraints is a power of two (at least 2) and toxic waste avoids the degenerate values; it is false for other constraint counts because the powers of tau are truncated before the inverse FFT.", "quantifier": "all satisfied circuits, all setup and prover randomness", "why_tests_cant": "All circuit sizes and all randomness; the repository tests use a single circuit.", "anchors": ["groth16/src/zksnark.rs: setup, eval", "groth16/src/prover.rs: create_proof", "groth16/src/proof.rs: verify"]}
{"id": "C35", "title": "Groth16 verification rejects wrong public-input counts and accepts exactly the pairing equation", "statement": "verify returns Ok iff the number of public inputs matches the key and e(A,B) = e(alpha,beta) * e(IC(x),gamma) * e(C,delta) in the pairing group.", "quantifier": "all keys, proofs and public inputs", "why_tests_cant": "All combinations.", "anchors": ["groth16/src/proof.rs: verify", "groth16/src/verifier.rs"]}
{"id": "C36", "title": "Groth16 proofs leak nothing beyond the public inputs (perfect zero knowledge)", "statement": "For a fixed key and public input the proofs of any two satisfying witnesses are equidistributed: each (A,B) arises from exactly one (r,s) and C is then determined by the verification equation.", "quantifier": "all witnesses, keys with nonzero delta and all (A,B)", "why_tests_cant": "A distributional statement over all randomness.", "anchors": ["groth16/src/prover.rs: create_proof"]}
{"id": "C37", "title": "Pedersen commitment is additively homomorphic but only over the generator count", "statement": "commit(a+b) = commit(a)+commit(b), commit(c*a) = c*commit(a); the commitment ignores message positions beyond the number of generators, so it does not bind longer vectors.", "quantifier": "all generator lists, messages and scalars", "why_tests_cant": "All lengths and values.", "anchors": ["nova/src/pedersen.rs: commit"]}
{"id": "C38", "title": "Folding preserves satisfaction", "statement": "If (U1,W1) and (U2,W2) satisfy the relaxed R1CS (and their commitments open), then for every challenge r the folded instance-witness pair satisfies it and its commitments open to the folded witness.", "quantifier": "all shapes, instances, witnesses, challenges", "why_tests_cant": "All vectors and lengths.", "anchors": ["nova/src/prover.rs: prove, compute_cross_term", "nova/src/relaxed_r1cs.rs: is_sat_relaxed", "nova/src/relaxed_r1cs/instance.rs: fold", "nova/src/relaxed_r1cs/witness.rs: fold"]}
{"id": "C39", "title": "Folding prover and verifier agree", "statement": "Verifier::verify, given the commitment to the cross term and the two instances, computes exactly the folded instance returned by Prover::prove.", "quantifier": "all shapes, instances, witnesses", "why_tests_cant": "All transcripts.", "anchors": ["nova/src/prover.rs: prove", "nova/src/verifier.rs: verify"]}
{"id": "C40", "title": "Folding soundness (special soundness) and challenge binding", "statement": "From foldings with three distinct challenges of the same committed cross term a witness for both instances can be extracted. The Fiat-Shamir challenge, however, does not depend on the second instance.", "quantifier": "all instances, witnesses, challenges", "why_tests_cant": "Universal over adversarial witnesses.", "anchors": ["nova/src/prover.rs", "nova/src/hash.rs", "nova/src/relaxed_r1cs/instance.rs: absorb_by_transcript"]}
{"id": "C41", "title": "Relaxed satisfiability checking is total and checks what it claims (refuted)", "statement": "is_sat_relaxed returns true iff az*bz = u*cz + e row by row; it does not check the commitments in the instance, so for every instance there is an accepted witness, and vectors of the wrong length make it panic rather than return false.", "quantifier": "all instances and witnesses", "why_tests_cant": "Adversarial witnesses are never generated in tests.", "anchors": ["nova/src/relaxed_r1cs.rs: is_sat_relaxed, is_sat"]}
{"id": "C42", "title": "IVC step function semantics and completeness", "statement": "Setup succeeds for any two step circuits and any generators; from any initial states z_0 of one element, after n >= 1 calls to prove_step (n below 2^64) the state is i = n, z_0 unchanged and z_i = F^n(z_0) on both curves, the proof carries exactly these, and verify accepts it. init itself already applies F once: before the first prove_step the counter is 0 and the states are F(z_0).", "quantifier": "all step counts, all initial states, all step functions with a circuit, all generators and round constants", "why_tests_cant": "Unbounded number of steps.", "anchors": ["nova/src/ivc.rs: setup, init, prove_step", "nova/src/proof.rs: verify", "nova/src/circuit/augmented.rs: generate"]}
{"id": "C43", "title": "IVC verification soundness (refuted)", "statement": "A user expects RecursiveProof::verify to accept only if z_n = F^n(z_0). It is false: for any counter, initial states and final states there is a proof carrying them that verify accepts, because no gate of the step circuit mentions its public inputs. What acceptance does mean, exactly: two hash equalities, two relaxed systems satisfied by the witnesses given, one strict system with its commitment.", "quantifier": "all counters and states; all proofs with vectors of the right lengths", "why_tests_cant": "Tests only run honest provers.", "anchors": ["nova/src/proof.rs: verify", "nova/src/relaxed_r1cs.rs", "nova/src/circuit/augmented.rs"]}
{"id": "C44", "title": "Native and in-circuit MiMC transcript agree; truncation is not enforced", "statement": "For every absorbed sequence the in-circuit MiMC returns the value of the native one, for an honest prover and in every satisfying assignment; the native squeeze returns the low n bits of the hash (n <= 253) and the in-circuit squeeze returns the same number for an honest prover. The in-circuit squeeze is not sound: every satisfying assignment extends to one where it returns any chosen n-bit number.", "quantifier": "all states and input sequences; all satisfying assignments", "why_tests_cant": "All inputs of all lengths.", "anchors": ["nova/src/hash.rs", "nova/src/gadget/mimc.rs", "nova/src/circuit/transcript.rs"]}
{"id": "C45", "title": "Limb decomposition of big naturals is faithful", "statement": "nat_to_limbs/limbs_to_nat round-trip for every natural that fits (limbs of up to 253 bits) and nat_to_limbs panics for every one that does not; limbs_to_nat is the positional value of any limbs; f_to_nat/nat_to_f round-trip on every field element; polynomial multiplication is the product of polynomials in every satisfying assignment; group_limbs keeps the represented value for an honest prover.", "quantifier": "all naturals, limb widths and limb counts; all satisfying assignments for multiplication", "why_tests_cant": "Unbounded sizes.", "anchors": ["nova/src/gadget/big_nat.rs"]}
{"id": "C46", "title": "Non-native multiplication and reduction: honest runs are right, results are not enforced (soundness refuted)", "statement": "For numbers below 2^256 in four 64-bit limbs and a nonzero modulus, mult_mod and red_mod succeed, their gates hold, and they return a*b mod m and a mod m (so do the constructions they are fed by: witnesses, numbers from field elements, sums, selections). A user also expects every satisfying assignment to carry that result. It is false: for every four field elements there is an assignment, extending any satisfying one, in which the result is those four elements, since base, offset and accumulated offset of the carry chain are free witnesses.", "quantifier": "all operands, moduli, constraint systems; all targets for the refutation", "why_tests_cant": "All big integers and adversarial witnesses.", "anchors": ["nova/src/gadget/big_nat.rs: mult_mod, red_mod, enforce_equal_when_carried, enforce_equal_when_carried_regroup, group_limbs, Polynomial"]}
{"id": "C47", "title": "Scalar/base field transfers", "statement": "scalar_as_base and base_as_scalar keep the canonical integer reduced modulo the target field; they are injective exactly on integers below the smaller modulus.", "quantifier": "all field elements", "why_tests_cant": "Density 2^-126 failures.", "anchors": ["nova/src/driver.rs: scalar_as_base, base_as_scalar"]}
{"id": "C48", "title": "Pallet state machine: storage changes only through accepted proofs or signed calls", "statement": "In every history of extrinsics, the sample pallet's first value changes only in a signed call whose proof verified, failing calls change nothing, and the nova pallet's verify succeeds iff the origin is signed and the proof verifies against the supplied parameters.", "quantifier": "all histories of extrinsics", "why_tests_cant": "Unbounded histories and arbitrary proofs.", "anchors": ["pallet/nova/src/lib.rs: verify", "sample/src/lib.rs"]}
{"id": "C49", "title": "get_sum returns the sum of the stored values (refuted for overflow)", "statement": "get_sum returns thing1+thing2 - only if the sum fits in 32 bits; otherwise debug builds panic and release builds wrap.", "quantifier": "all stored pairs", "why_tests_cant": "2^64 pairs with half overflowing region untested.", "anchors": ["sample/src/lib.rs: get_sum"]}
{"id": "C50", "title": "SCALE decoding of field elements admits non-canonical values", "statement": "The derived codec of field elements, extension fields, points, wires, rows, matrices, shapes, proofs and public parameters is exact: decode(encode(v) ++ rest) gives v and rest, and decoding accepts nothing but encodings, so encodings are unambiguous and prefix-free. But decoding accepts any four limbs for a field element; every element has a second encoding that decodes to a value with the same residue that compares unequal, and the encoding of the modulus decodes to a non-zero value whose product with everything is zero.", "quantifier": "all values and all byte strings", "why_tests_cant": "Non-canonical inputs are never tested.", "anchors": ["bn254/src/fr.rs", "zkstd/src/macros/field/ring.rs"]}
{"id": "C51", "title": "ff-compatibility layer", "statement": "from_repr/to_repr round-trip on canonical elements; to_repr, is_odd and to_le_bits give the canonical integer, its parity and its bits; conditional_select and ct_eq select and compare; the constants of Fr satisfy what the ff crate asks of them. However from_repr accepts every 32-byte string (value modulo the prime), the compatibility inverse of zero is reported as Some(one), and the constants of Fq are wrong (S, MULTIPLICATIVE_GENERATOR).", "quantifier": "all elements and byte strings", "why_tests_cant": "Non-canonical inputs untested.", "anchors": ["bn254/src/ff_compat.rs"]}
{"id": "C52", "title": "Pairing evaluation consumes exactly the prepared coefficients", "statement": "The number of line coefficients produced when preparing a G2 point equals the number consumed by the Miller loop, so multi_miller_loop never runs out of or leaves unused coefficients, whatever the points (identity points being skipped).", "quantifier": "all lists of pairs", "why_tests_cant": "All lists.", "anchors": ["bn254/src/pairing.rs", "bn254/src/g2.rs"]}
{"id": "C53", "title": "The pairing is the optimal ate pairing", "statement": "For a G1 point P with non-zero y and a G2 point Q, the pairing equals f^((q^12-1)/r), where f is the Miller value of the textbook optimal ate pairing: the product of affine tangent and chord evaluations along the signed digits of 6x+2, followed by the two Frobenius lines; pairs with an identity point give one.", "quantifier": "all pairs of points on which no line is vertical, all digit lists", "why_tests_cant": "The value is only compared with a few reference vectors; the Jacobian line formulas and the sparse products have many cases.", "anchors": ["bn254/src/pairing.rs: pairing, multi_miller_loop", "bn254/src/g2.rs: G2PairingAffine::from, double_eval, add_eval", "bn254/src/params.rs: SIX_U_PLUS_2_NAF"]}
{"id": "C54", "title": "Final exponentiation raises to (q^12-1)/r", "statement": "final_exp of a non-zero f is f^((q^12-1)/r), so it has order dividing r and is multiplicative; it panics on zero.", "quantifier": "all elements of Fq12", "why_tests_cant": "The addition chain with Frobenius maps and cyclotomic squarings is only checked on random samples.", "anchors": ["bn254/src/fqn.rs: final_exp", "bn254/src/fqn.rs: cyclotomic_square"]}
{"id": "C55", "title": "Square roots in Fq2", "statement": "Fq2::sqrt returns Some(s) only with s^2 = a, and returns Some whenever a is a square.", "quantifier": "all elements of Fq2", "why_tests_cant": "Special cases (alpha = -1, a in the base field) have negligible probability under random sampling.", "anchors": ["bn254/src/fqn.rs: sqrt"]}
{"id": "C56", "title": "The target group", "statement": "The elements of norm one, which include every value returned by the final exponentiation and by the pairing, form a commutative group under + with the additive identity one and - as inverse; double and the other operators agree with +. The generator is the pairing of the generators of G1 and G2, has order exactly r, and its multiples are exactly the values of the pairing on G1 x G2. But zero() is not neutral and negation is not inverse on arbitrary elements such as those of random().", "quantifier": "all elements of Gt, all pairs of points", "why_tests_cant": "Only sums of pairing outputs are tested.", "anchors": ["bn254/src/gt.rs"]}
{"id": "C57", "title": "Multiplication by the curve parameter", "statement": "mul_by_x of G1 and G2, on which is_torsion_free relies, multiplies a curve point by the BN parameter x - which is false of the code: it multiplies by -(x-1), and agrees with x*P only on points killed by 2x-1.", "quantifier": "all curve points", "why_tests_cant": "The routine is only reachable through is_torsion_free; no test compares it with scalar multiplication.", "anchors": ["bn254/src/g1.rs: mul_by_x, is_torsion_free", "bn254/src/g2.rs: mul_by_x"]}
{"id": "C58", "title": "The order on wires is consistent with equality (refuted)", "statement": "A user who sorts or deduplicates wires expects that two wires compare as equal only if they are the same wire. It is false: an instance wire and a witness wire with the same index compare as Equal; the order is right within each kind.", "quantifier": "all pairs of wires", "why_tests_cant": "the collision is between values of different kinds, which unit tests sort separately", "anchors": ["zkstd/src/r1cs/wire.rs: Ord::cmp"]}
{"id": "C59", "title": "Groth16 soundness against algebraic provers", "statement": "A prover whose three proof elements are fixed linear combinations of the published key elements, and whose proof verifies for given public inputs over a grid of toxic waste (2 alphas, 3 betas, 3 gammas, 4 deltas, 2n-1 taus), has a witness: some satisfied instance of the circuit has these public inputs. Circuits of 2^k constraints.", "quantifier": "all circuits of 2^k constraints, all coefficient vectors, all public inputs, all such grids, all bilinear groups", "why_tests_cant": "no test can enumerate provers or toxic waste", "anchors": ["groth16/src/zksnark.rs: setup", "groth16/src/proof.rs: verify"]}
{"id": "C60", "title": "G1 and Grumpkin have prime order and scalars act on every point", "statement": "Every point on the G1 curve is a multiple of the generator, and r times any point is the identity; the same for Grumpkin with q. Hence for every point P of the curve and all scalars, P*(a+b) = P*a + P*b and (P*a)*b = P*(a*b): no subgroup check is needed.", "quantifier": "all curve points, all scalars", "why_tests_cant": "a test cannot enumerate 2^254 points", "anchors": ["bn254/src/g1.rs", "grumpkin/src/curve.rs", "zkstd/src/arithmetic/points/weierstrass.rs: scalar_point"]}
{"id": "C61", "title": "The 384-bit limb functions compute modulo any 383-bit odd modulus", "statement": "For every modulus below 2^383 with its Montgomery constant, add, sub, double, neg and mul of the six-limb functions, applied to reduced Montgomery forms, return the reduced Montgomery form of the sum, difference, double, negative and product; to_mont_form, one, from_u64 and from_u512 (which takes 768 bits) return that of the given integer; every residue has exactly one reduced form; to_bits lists the 384 bits from the top and to_nafs signed digits from the bottom. square equals mul by itself exactly when neither of the two carries the code discards occurs, and both occur for reduced inputs modulo the BLS12-381 prime; pow and invert are right whenever none of their squarings discards a carry.", "quantifier": "all moduli, all limb vectors, all exponents", "why_tests_cant": "the input space is 2^768; the carries are lost with probability about 2^-64", "anchors": ["zkstd/src/arithmetic/limbs/bits_384/normal.rs: add, sub, double, mul, square, neg, mont, pow, invert", "zkstd/src/arithmetic/limbs/bits_384/represent.rs", "zkstd/tests/limbs.rs"]}
{"id": "C62", "title": "The pairing is bilinear", "statement": "For every point P of G1 (the whole curve) and every multiple Q of the G2 generator the pairing is defined, its value has order dividing r, e(P+P',Q) = e(P,Q)e(P',Q), e(P,Q+Q') = e(P,Q)e(P,Q'), and e(aP,bQ) = e(P,Q)^(ab) for all integers a, b. The G2 generator has order exactly r. e(P,Q) is one exactly when P or Q is the identity.", "quantifier": "all curve points, all multiples of the generator, all integers", "why_tests_cant": "a test cannot enumerate pairs of points; bilinearity depends on the loop length, the Frobenius constants and the final exponent all at once", "anchors": ["bn254/src/pairing.rs: pairing, multi_miller_loop", "bn254/src/g2.rs", "bn254/src/params.rs", "bn254/src/fqn.rs"]}
{"id": "C63", "title": "Groth16 is complete, zero knowledge and sound over the library's own groups", "statement": "With G1, G2, the target group and the pairing of bn254: honest proofs of satisfied circuits of 2^k constraints verify, proofs are simulatable, an algebraic prover that verifies over a grid of toxic waste has a witness, and the verifier accepts exactly when e(A,B) = e(alpha,beta) e(sum x_i IC_i, gamma) e(C,delta) for the values the pairing returns.", "quantifier": "all circuits of 2^k constraints (1 <= k <= 28), all instances, all randomness, all toxic waste, all keys and proofs of group elements", "why_tests_cant": "no test can enumerate circuits, provers or toxic waste", "anchors": ["groth16/src/zksnark.rs", "groth16/src/prover.rs", "groth16/src/verifier.rs", "bn254/src/pairing.rs"]}
{"id": "C64", "title": "Subgroup membership checks accept exactly the points of order r", "statement": "is_torsion_free on a point of G1 or of the G2 twist returns true exactly when r times the point is the identity. (False of the code: the constants belong to another curve; the checks accept the identity and reject every other point, in particular all of G1 and all other multiples of the G2 generator.)", "quantifier": "all points of both curves", "why_tests_cant": "a test sees a few points; only the algebra shows that no finite point at all is accepted", "anchors": ["bn254/src/g1.rs: BETA, endomorphism, is_torsion_free", "bn254/src/g2.rs: psi, is_torsion_free"]}
{"id": "C65", "title": "Curve operations remain right on the limb-level square of the base field", "statement": "is_on_curve, point addition, doubling and scalar multiplication on G1, G2 and Grumpkin, computed with the library's own square of the base field (which loses a carry on some elements), give the group operation whenever no element squared on the way is one of those; for a point of G1 or Grumpkin, is_on_curve accepts it exactly when neither coordinate is such an element, and affine doubling is right exactly when y is not. (Unconditionally false: there are curve points that is_on_curve rejects and whose double leaves the curve, and points off the curve that it accepts, on all three curves.)", "quantifier": "all points of the three curves and all scalars", "why_tests_cant": "about one element in 2^64 is affected, so no random test meets one, but an attacker can construct such points", "anchors": ["zkstd/src/arithmetic/points/weierstrass.rs: add_affine_point, add_mixed_point, add_projective_point, double_affine_point, double_projective_point, scalar_point", "zkstd/src/arithmetic/limbs/bits_256/normal.rs: square", "zkstd/src/macros/curve/weierstrass/group.rs: is_on_curve"]}
{"id": "C66", "title": "Windowed-recoding helpers act on the canonical integer", "statement": "After reduce() the limbs of a BN field element hold the integer it stands for; on such limbs is_even and mod_2_pow_k give its parity and low bits, mods_2_pow_k gives the signed residue modulo 2^w for widths 1 to 6, and divn divides the integer by 2^n rounding down for every n. Outside these widths mods_2_pow_k panics although it accepts w < 32 (w = 7 for half of the residues, w = 0 and w >= 8 always), and without reduce() the helpers see the Montgomery form.", "quantifier": "All limb vectors, all elements of both fields, all widths and all shift amounts.", "why_tests_cant": "A test fixes a few scalars and widths; carries between limbs and the i8 overflow depend on the value and the width.", "anchors": ["zkstd/src/macros/field.rs: divn, reduce, is_even, mod_2_pow_k, mods_2_pow_k"]}
{"id": "C67", "title": "The assembly limb backend against the portable one", "statement": "The x86-64 assembly functions for 256-bit limbs return values that depend on their arguments alone, not on stale registers or flags. add, sub, double and neg return exactly the words of the portable functions, for all words and moduli. mul and square are exact when no carry chain overflows its last adc; they are not exact in general (a carry out of that adc is dropped: there are reduced operands with a wrong product and a wrong square), and they use one fixed Montgomery constant, so with either BN254 modulus even one times one is wrong.", "quantifier": "all operand words, all moduli, all initial processor states", "why_tests_cant": "The dropped carries need a word of all ones at a given place, which random inputs do not hit; the backend is also behind an undeclared feature, so no test runs it.", "anchors": ["zkstd/src/arithmetic/limbs/bits_256/assembly.rs: add, sub, double, mul, square, neg", "zkstd/src/arithmetic/limbs/bits_256.rs", "zkstd/tests/jubjub.rs: JUBJUB_MODULUS, JUBJUB_INV"]}
{"id": "C68", "title": "The field macro on any modulus below 2^255", "statement": "Given limb constants that belong to a modulus m with 1 < m < 2^255 (the modulus itself, -1/m modulo 2^64, and 2^256, 2^512, 2^768 modulo m), the code the field macro generates computes residues modulo m: reduced limbs stand for residues one to one; zero, one, add, sub, neg, double, mul, equality and the zero test are those of the residues; conversions from integers, limbs, wide bytes and random words reduce; byte encoding is a bijection onto the strings below m; bit, base-4 and signed digits spell the residue; the comparison orders Montgomery forms. square is the product exactly on the elements whose limbs lose no carry; pow and (for prime m) invert are right when no square on the way loses one. The Jubjub test instance meets the conditions, its modulus is prime, its generator is a non-residue and its root of unity has order exactly 2^32. Without the size condition the sum is wrong.", "quantifier": "all moduli and constants that belong together, all elements, all byte strings and words", "why_tests_cant": "The library ships a macro, not two fields: a user picks the modulus, so the law is over all moduli; tests can only run the instances in the repository.", "anchors": ["zkstd/src/macros/field.rs: fft_field_operation, field_operation", "zkstd/src/arithmetic/limbs/bits_256/normal.rs", "zkstd/tests/jubjub.rs: BLS_SCALAR_MODULUS, BLS_SCALAR_R2, BLS_SCALAR_INV, ROOT_OF_UNITY"]}
{"id": "C69", "title": "Jubjub on limbs", "statement": "The twisted Edwards code with the Jubjub constants of the test suite, computed on limbs: -1 is a square and d is not, so the addition law has no exceptional case; the generator is on the curve with a consistent t. Additions, subtractions and negations of extended, affine and mixed operands compute the group law for all points of the curve. Doubling and scalar multiplication do so when no square loses a carry; for extended points outside the small-order cases, and for affine points of which not both coordinates lose one, doubling is right only then. is_on_curve accepts a curve point with x not zero exactly when neither coordinate loses a carry (or both do and x^2 + y^2 = 2 / 2^128). There are curve points that it rejects and whose double is no curve point, and a pair off the curve that it accepts.", "quantifier": "all points of the curve in all representations, all scalars", "why_tests_cant": "The suite runs the Edwards code on random points; an element on which square loses a carry turns up with probability about 2^-65.", "anchors": ["zkstd/src/arithmetic/points/edwards.rs: add_affine_point, double_affine_point, add_mixed_point, add_projective_point, double_projective_point, scalar_point", "zkstd/src/macros/curve/edwards/group.rs: is_on_curve", "zkstd/tests/jubjub.rs: EDWARDS_D, JubjubAffine, JubjubExtended"]}
{"id": "C70", "title": "The transcript hash on limbs", "statement": "The native MiMC hash squares with the field's square, which drops a carry on some elements, while the circuit squares with a product. Where the native run loses no carry, the native hash, the native transcript and the circuit's hash and challenge agree. A round is right exactly when neither of its two squares loses a carry, for Fr and for Fq, and a hash whose earlier rounds lose none is right exactly when the last round loses none. Whatever the constants, some input loses a carry in the last round; for every constant a one-round hash and a one-element transcript are wrong on some element, and with the library's 46 constants over Fr there is an input on which the full native hash is not the hash the circuit enforces.", "quantifier": "all constants, all inputs and all transcripts over Fr and Fq; for the last part the library's constants", "why_tests_cant": "The inputs that lose a carry are about one in 2^58, so no random or hand-written transcript meets one.", "anchors": ["nova/src/hash.rs: Mimc::hash, MimcRO::squeeze", "nova/src/gadget/mimc.rs: MimcAssignment::hash", "zkstd/src/arithmetic/limbs/bits_256/normal.rs: square"]}
{"id": "C71", "title": "The pairing on limbs", "statement": "The pairing computed with the limb square and the limb inversion of Fq, which lose a carry on some elements, is the optimal ate pairing whenever the preparation of the G2 point, the final exponentiation and its one inversion in Fq lose none; nothing is asked of the Miller loop. The same holds for the product over several pairs that the Groth16 verifier computes, and such runs are bilinear. The lines prepared for a finite point are the tangent and chord lines only if the square of its x loses no carry and y and y + 1 agree on theirs, and there is a point of the G2 curve whose prepared lines are wrong.", "quantifier": "all points, all lists of pairs, all values of the Miller loop, all digit strings", "why_tests_cant": "The elements that lose a carry are rare: no test vector meets one.", "anchors": ["bn254/src/g2.rs: double_eval, add_eval, G2PairingAffine::from", "bn254/src/fqn.rs: final_exp, cyclotomic_square, get_invert, square_ext_field", "bn254/src/pairing.rs: TatePairing::pairing, multi_miller_loop", "zkstd/src/arithmetic/limbs/bits_256/normal.rs: square, invert"]}
{"id": "C72", "title": "The Fourier transforms on limbs", "statement": "Over Fr, with the limb square, inversion and power, which lose a carry on some elements: Fft::new(k) works exactly for 1 <= k <= 28; dft and coset_dft return the values of the polynomial at the powers of the root of unity, and on the coset, without any proviso; idft, coset_idft and the round trip are right whenever the inversions of the root, of n and of the coset generator lose no carry; z(tau) is tau^n - 1 if no tau^(2^i) with i < k loses a carry, and when only the last may, exactly if it does not; division by z on the coset divides whenever its one inversion is exact. There is a tau for which z is wrong on the domain of two points.", "quantifier": "all k, all polynomials and all vectors of values, all tau in Fr", "why_tests_cant": "The exactness conditions concern elements that are about one in 2^58, and 28 domain sizes of up to 2^28 points.", "anchors": ["groth16/src/fft.rs: Fft::new, dft, idft, coset_dft, coset_idft, z, z_on_coset, divide_by_z_on_coset", "zkstd/src/arithmetic/limbs/bits_256/normal.rs: square, pow, invert"]}
{"id": "C73", "title": "Groth16 on points, from setup to verify", "statement": "The whole argument on affine and projective BN254 points, as the code computes it (keys and proofs of affine points, projective products and sums, bucket sums in the prover, one Miller loop over three prepared pairs in the verifier): keys are made for every circuit of 2^k constraints and usable toxic waste and hold the announced multiples of the generators; a proof made for any satisfied instance verifies; for a key and public inputs there is one table of proofs, as records of coordinates, that for every witness is met by exactly one pair of blinding factors per entry; an algebraic prover that verifies over a grid of toxic waste has a witness; and for every key and proof of points in the groups the verifier accepts exactly when the numbers of inputs match and e(A,B) = e(alpha,beta) e(sum x_i IC_i,gamma) e(C,delta), tells the two reasons apart, and panics for an empty key only.", "quantifier": "all circuits of 2^k constraints (1 <= k <= 28), all instances, witnesses, blinding factors and toxic waste, all keys and proofs of group points", "why_tests_cant": "no test can enumerate circuits, witnesses or proofs; the identity, equal and opposite points take separate branches of the point arithmetic that random runs do not meet", "anchors": ["groth16/src/zksnark.rs: setup, eval", "groth16/src/prover.rs: create_proof", "groth16/src/verifier.rs: prepare, verify", "groth16/src/proof.rs: verify", "groth16/src/msm.rs: msm_curve_addition", "bn254/src/g1.rs", "bn254/src/g2.rs", "bn254/src/pairing.rs"]}
{"id": "C74", "title": "Groth16 with the limb arithmetic that loses carries", "statement": "The whole argument computed with the limb versions of square, invert and pow: if no square, inversion or power met on the way is one of the inputs on which these are wrong (C02, C03, C06, C65), then setup, create_proof, prepare and verify return what they return over exact arithmetic (C73) - the same key, proof, error or verdict; so an honest run through which no such input passes ends with an accepted proof, and verify accepts exactly when the numbers of inputs match and the pairing equation holds. Without that proviso it fails: there is a verifying key with all points on their curves whose preparation is not the one of the exact points", "quantifier": "every circuit, toxic waste, key, witness, blinding, proof and list of public inputs, and every list of loop digits", "why_tests_cant": "a lost carry depends on the value: a test meets one with negligible probability, and a proof made or checked across one looks like a forged proof", "anchors": ["groth16/src/zksnark.rs:setup", "groth16/src/prover.rs:create_proof", "groth16/src/verifier.rs:prepare", "groth16/src/proof.rs:verify", "zkstd/src/arithmetic/limbs/bits_256/normal.rs: square"]}
