# Formal model of KogarashiNetwork/Kogarashi in Rocq (Coq 8.16.1)

The source (Rust, `/repo`) is read as text; the model and the proofs are in `rocq/theories`.
`properties.jsonl` lists the properties (C01, C02, ...), `MANIFEST.json` the theorems of each property, and
`seeded/LOG.jsonl` the experiments with wrong programs.

## How a property is organised

* `*Model.v`: the code, function by function. Each definition cites the file and lines it models and says where it simplifies.
* `*Spec.v`: the vocabulary of the statements (residues, group laws, satisfaction, ...), independent of the algorithms.
* `Claims*.v`: one theorem per part of a property, named `Cnn_...`, with an example beside it that meets the hypotheses.
* everything else: proofs.
* `Audit.v`: names every theorem of the manifest and prints the assumptions of all of them.

Naming. `_refuted`: the property, as a user would expect it, is false of the code, and the theorem exhibits the failure.
`_when_exact`: the property holds under the stated proviso that no `square()` in the run loses a carry (see below).
A property of `properties.jsonl` is worded as it is proved: where the natural wording is false, the entry says so.

## Layers

1. 256-bit limbs: `LimbModel`, `LimbProofs`, `MontProofs`. Words are integers with explicit reduction modulo 2^64 and 2^128.
2. Primality of the moduli: `Primes` (Fermat, Pocklington), certificates checked by the kernel.
3. The two prime fields on limbs: `FieldModel`, `FieldSpec`, `FieldProofs`, `DigitProofs`, `PowProofs`, `FieldMore`, `SqrtSpec`, `SqrtProofs`.
4. `Algebra`: records for fields (`Fld`) and commutative groups; `FrFld` and `FqFld` are the limb code as fields.
5. Over any field: extension fields (`Ext*`), curve points (`Weier*`, `Curve*`, `Edwards*`), the pairing (`Pairing*`, `Miller*`,
   `FinalExp*`), multi-scalar multiplication, polynomials and FFT, constraint systems and gadgets (`R1cs*`, `Gadget*`, `Range*`),
   Groth16, Nova folding, big naturals in circuits, the augmented circuit and IVC.
   The claims instantiate them with the fields and curves of the library.
6. Bytes (`Codec*`), the `ff` layer (`Ff*`), the runtime modules (`Pallet*`).

### The carry of `square`

`square` of the limb layer loses a carry for some reduced elements (`drops_carry` in `FieldSpec`): C02 proves that it is the
product exactly for the others. Everything that squares inherits the proviso (C03, C06, C11, C51). Layers 5 and 6 are stated over
fields with exact arithmetic, that is `square()` is `x * x` and `invert()` is the inverse; for the library's fields this is what
the limb code computes whenever no carry is lost. `C14_fq2_square_limbs_when_exact` and `C14_fq2_square_refuted` trace the deviation one layer up, C65 traces it into
the point arithmetic, C69 into Jubjub, C70 into the transcript hash, C71 into the pairing and C72 into the Fourier transforms.

## Properties

| id | modelled | how it is proved |
|----|----------|------------------|
| C01 C02 | limb add, sub, double, neg, mul, square, mont, word by word | carry-chain lemmas; value is the integer modulo p and is reduced |
| C03 | invert, pow, little_fermat, Div | Fermat's theorem, Pocklington certificates; refutation witness |
| C04 | from_u64, to_mont_form, from_u512, from_bytes_wide | Montgomery product with one unreduced operand |
| C05 | to_bytes, from_bytes | expansions in base 256; the borrow test is a comparison |
| C06 | pow, pow_of_2, pow_vartime | induction on the bits, most significant first |
| C07 C08 | to_bits, to_nafs, to_costomized_repr | digit sums; the identity 3x - x = 2x for the recoding |
| C09 | PartialOrd, Ord | lexicographic order; refutation witness |
| C10 C47 | conversions between fields | reduction lemmas; refutation witnesses |
| C11 | both sqrt | invariant of the Tonelli-Shanks loop in a field, simulated on limbs; refutation |
| C12 C55 | lexicographically_largest, sqrt in Fq2 | comparison with (q-1)/2; norm argument |
| C13 C22 | operator forms as written in the macros | equalities; witnesses for the wrong ones |
| C14 C15 C16 C17 | fqn.rs | ring identities against quotient rings; norms; Frobenius by the freshman's dream |
| C18 C19 C20 C21 | points/weierstrass.rs and the macros | field identities against chord and tangent; associativity; double-and-add |
| C23 | points/edwards.rs and the macros | completeness; certificates for associativity |
| C24 | msm.rs | bucket sums and digit recomposition in any commutative group |
| C25 C50 | raw and SCALE encodings | prefix-codec lemmas; refutation witnesses |
| C26 C27 | poly.rs, fft.rs | Horner and division lemmas; butterfly recursion against evaluation |
| C28 C29 C58 | matrix, r1cs, wire | evaluation lemmas |
| C30-C33 | gadgets | honest-run calculus; soundness over every satisfying assignment; extension of assignments for refutations |
| C34 C35 C36 C59 | groth16 | the QAP identity in the exponent; simulation; polynomial identities in the toxic waste |
| C37-C41 | nova folding | vector algebra over any field and group |
| C42 C43 C44 | ivc, verifier, MiMC, augmented circuit | induction over steps; forged proof; round-by-round agreement |
| C45 C46 | big_nat.rs | expansions in base 2^w; carries; forged witnesses |
| C48 C49 | the two pallets | state machine over all histories |
| C51 | ff_compat.rs | reduction to the field claims; constants by computation |
| C52 C53 C54 C56 C57 | g2.rs, pairing.rs, fqn.rs, gt.rs, params.rs | the loop against the Miller function; exponent arithmetic; the generator of the target group by one kernel computation of the pairing of the generators |
| C60 | orders of G1 and Grumpkin | a generator of prime order and a bound on the number of points from the curve equation (no Hasse bound is used) |
| C61 | 384-bit limbs | every operation as an operation on residues, for all moduli below 2^383; the exact condition under which `square` loses one of its two carries, with witnesses modulo the BLS12-381 prime |
| C62 | the pairing is bilinear | the exponent of the Miller value as a cocycle: divisors are never mentioned, only that a product of lines over chords depends on its end points; the loop relation s + pi - pi^2 + pi^3 on the multiples of the G2 generator, from a certificate for (x+1) + x pi + x pi^2 - 2x pi^3; the final power sends values of the subfield to one; the pairing of the generators is computed in the kernel on integers in Montgomery form with base-64 digit tables (Dig64, PairNum, PairNonDeg), which a homomorphism relates to the model |
| C63 | Groth16 over the library's groups | G1, the subgroup of the twist on which the relation holds and the roots of unity of order r form `bilinear_groups`; the Groth16 theorems are applied to them |
| C64 | subgroup checks | `is_torsion_free` of G1 and G2 with `endomorphism`, `psi` and their unreduced literals; refuted: the maps leave the curve on every finite point (3 and a norm are non-squares, as their negatives are squares), so only the identity passes |
| C65 | curve operations with the limb-level square | WeierSqModel.v repeats the point functions with the base field's `square` as a parameter and lists the elements each one squares; simulation of WeierModel.v when none loses a carry; a lost carry adds the non-zero constant -2/2^128 to the square, which gives the exact conditions (no point of order 3, from C60); refuted by constructed points |
| C66 | RecodeModel `mods_2_pow_k`, FieldModel `divn`, `freduce`, `is_even`, `mod_2_pow_k` | bit-disjointness of the shifted limbs and `Z.div` arithmetic, for every limb vector, width and shift; the failing widths exactly |
| C67 | AsmModel: the instruction lists of `add`, `sub`, `double`, `mul`, `square`, `neg`, with a semantics of the thirteen instructions used (registers, CF, ZF, three input arrays) | symbolic execution block by block with carry equations; a written-before-read check proved sound for purity; concrete operands for the refutations |
| C68 | FieldModel over any `fparams`; MacroSpec: what the constants must be; JubjubModel: the constants of zkstd/tests/jubjub.rs | the generic field proofs with the parameter conditions discharged from MacroSpec; a Pocklington certificate for the BLS12-381 scalar modulus (JubjubPrime); a 256-bit modulus as counterexample to dropping the size bound |
| C69 | EdwardsModel over the limb field of C68; EdwardsSqModel: the operations that square, with the limb `square` | instances of C23; `d` is a non-square because 7 is; the limb `square` is the product plus a constant on the elements that lose a carry, so the computed double or curve equation is compared with the true one by algebra; concrete points for the refutations |
| C70 | HashSqModel: hash.rs with the limb `square` as a parameter; the circuit is AugmentedModel's | induction over the rounds; the condition for one round is sharp because the wrong value would need a root of one of two quadratics that are non-squares or are squared exactly; rounds are invertible, so every state is reached; one run with the library's constants, decided on residues |
| C71 | PairSqModel: the extension-field inversions, final_exp and the preparation of g2.rs with the limb `square` and `invert` of Fq as parameters; the Miller loop as in PairingModel | each function equals its exact twin when the listed elements are squared exactly; the first line of the loop shows the lost carry of x, and the difference of those of y + 1 and y |
| C72 | FftSqModel: Fft::new, z and the division by z with the limb `square`, `invert` and `pow` as parameters; the transforms as in PolyModel | the 28 squares of the root and of the generator are checked once; inverses are never missing, so the transforms that use none are exact; `pow` with exponent 2^k squares k times |
| C73 | Groth16Points: `setup`, `prepare`, `create_proof`, `verify` on affine and projective points, with the bucket sum of MsmModel, the scalar multiplication of WeierModel and the Miller loop of PairingModel | refinement: every value is related to an element of the groups of C63, every step preserves the relation (C18, C19, C21, C24, C52, C54, C62), errors and panics coincide; then C63 transfers. Affine results are canonical, so zero knowledge holds of coordinates |
| C74 | Groth16Limbs: the protocol of Groth16Points over a record of operations that may panic; instances with the limb `square`, `invert` and `pow`, with exact arithmetic, and "guarded" (exact, but panicking before the first input on which the limb version is wrong) | order on runs ("panics or equal"): every step is monotone in the operations, and the guarded operations are below both the limb ones and the exact ones; so a guarded run that does not panic is the limb run and the exact run. Refutation by the point of C71 |

## Trusted base

* Coq 8.16.1's kernel, including its virtual machine (`vm_compute`, `vm_cast_no_check` followed by `Qed`).
* `Print Assumptions` says "Closed under the global context" for each of the theorems of the manifest (checked one by one, and
  printed for all together by `Audit.v` in every build). No axiom is declared in this development.
* `coqchk` also lists seven axioms of the standard library that are declared in a file that happens to be loaded and that no theorem uses:
  `Coq.ssr.ssrunder.Under_rel.Under_rel`, `Under_rel_from_rel`, `Under_relE`, `Over_rel`, `over_rel`, `over_rel_done`, `under_rel_done`.
* The hand-written model is faithful to the Rust source. It was read, not extracted or executed.

Hypotheses in statements, instead of axioms:

* Groth16 (C34-C36, C59): the two curve groups, the target group and a bilinear non-degenerate map (record `bilinear_groups`).
  C63 shows that the groups and the pairing of bn254 qualify.
* Nova (C37-C47): a group on which the scalars act; `bn254_driver_ok` and `grumpkin_driver_ok` show that the two curves qualify.
* IVC (C42): the step circuit meets `step_circuit`; `example_step` does.

## What is modelled

* `zkstd/src/arithmetic/limbs/bits_256/{normal,represent}.rs`, `limbs/bits_384/{normal,represent}.rs`, `arithmetic/utils.rs`, `arithmetic/points/*.rs`
* `zkstd/src/macros/**` (prime fields, extension fields, Weierstrass and Edwards curves), `traits/**` (default methods)
* `zkstd/src/matrix/**`, `r1cs/**`, `circuit/gadget/**`
* `bn254/src/**`, `grumpkin/src/**`
* `groth16/src/**`, `nova/src/**`, `pallet/nova/src/lib.rs`, `sample/src/lib.rs`
* `zkstd/tests/jubjub.rs`: the operator impls of the only Edwards instance

## What is not modelled

* External crates: `parity-scale-codec` (its documented format is modelled), `ff`'s helpers (`sqrt_ratio_generic`), `subtle` (a `Choice`
  is a boolean), frame_support and frame_system (origins, storage and events are data), `rand_core`, `rayon`, `blake2b_simd` (an arbitrary function).
* Randomness: random elements are arguments of the functions that draw them.
* Time, memory, constant-time behaviour, stack use (calls that never return are called so in C13 and C22).
* Parallelism in msm and fft: the parallel iterators are maps over independent elements.
* `zkstd/src/arithmetic/limbs/bits_256/assembly.rs` is modelled (C67) at the level of its instructions. It is compiled only with the feature `asm`, which no manifest of the repository declares, so nothing else in the model uses it. Not modelled: flags other than CF and ZF, register allocation of the pointer operands, instruction timing.
* `Debug` and `Display`, benches, tests (except as above), serde.
* `usize`, `u32` counters are natural numbers where they count things in memory; overflow is modelled where it can happen (C49).

## Testing the theorems

`seeded/LOG.jsonl` has one line per wrong program: the edited definition, the edit, the claim it breaks and the theorems that no longer
compile. Edits described as harmless do not change the observable behaviour and are expected to leave the claims provable.
