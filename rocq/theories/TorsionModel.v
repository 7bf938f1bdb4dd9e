(** Model of the subgroup checks of bn254: [G1Affine::is_torsion_free] with its [endomorphism], and
    [G2Affine::is_torsion_free] with [G2Projective::psi].  The literals in these functions are not
    below the modulus, so a literal stands for the element its limbs act as in a product
    ([fq_literal]); ClaimsTorsion proves that the limb multiplication agrees. *)
From Coq Require Import ZArith List Bool.
From Verif Require Import LimbModel FieldModel FieldSpec Algebra ExtModel ExtParams ExtFrob PairingModel WeierModel.
Import ListNotations.
Local Open Scope Z_scope.

(** A literal [Fq([l0, l1, l2, l3])] whose limbs need not be below the modulus. *)
Definition fq_literal (c : l4) : FqFld := fq_mk (limb_value (montgomery_reduce fq c)).

(** g1.rs:9-14 [BETA]. *)
Definition BETA_limbs : l4 := L4 0x30f1361b798a64e8 0xf3b8ddab7ece5a2a 0x16a8ca3ac61577f7 0xc26a2ff874fd029b.
Definition BETA : FqFld := fq_literal BETA_limbs.

(** g1.rs:24-31 [endomorphism]. *)
Definition endomorphism (p : aff FqFld) : aff FqFld := Aff (kmul (ax p) BETA) (ay p) (ainf p).

(** g1.rs:61-70 [G1Affine::is_torsion_free]; [G1Projective::from] is [to_extended]
    (macros/curve/weierstrass.rs [From<affine> for projective]). *)
Definition g1_is_torsion_free (p : aff FqFld) : bool :=
  let mul_x := mul_by_x FqFld g1_param_b3 BN_X BN_X_IS_NEGATIVE in
  let minus_x_squared_times_p := proj_neg FqFld (mul_x (mul_x (to_extended FqFld p))) in
  proj_eqb FqFld minus_x_squared_times_p (to_extended FqFld (endomorphism p)).

(** g2.rs:115-123 [psi_coeff_x], 125-138 [psi_coeff_y]. *)
Definition psi_coeff_x_limbs : l4 := L4 0x890dc9e4867545c3 0x2af322533285a5d5 0x50880866309b7e2c 0xa20d1b8c7e881024.
Definition psi_coeff_y0_limbs : l4 := L4 0x3e2f585da55c9ad1 0x4294213d86c18183 0x382844c88b623732 0x92ad2afd19103e18.
Definition psi_coeff_y1_limbs : l4 := L4 0x7bcfa7a25aa30fda 0xdc17dec12a927e7c 0x2f088dd86b4ebef1 0xd1ca2087da74d4a7.
Definition psi_coeff_x : FQ2 := Q2 k0 (fq_literal psi_coeff_x_limbs).
Definition psi_coeff_y : FQ2 := Q2 (fq_literal psi_coeff_y0_limbs) (fq_literal psi_coeff_y1_limbs).

(** g2.rs:113-148 [psi]; the products are [mul_ext_field] (bn254/src/fqn.rs:359-363), the schoolbook
    formula, so each literal enters only products with an element. *)
Definition psi (p : proj Fq2Fld) : proj Fq2Fld :=
  Prj (F := Fq2Fld) (q2_mul FqFld (q2_frob FqFld (jx p)) psi_coeff_x)
                    (q2_mul FqFld (q2_frob FqFld (jy p)) psi_coeff_y)
                    (q2_frob FqFld (jz p)).

(** g2.rs:26-33 [G2Affine::is_torsion_free]. *)
Definition g2_is_torsion_free (p : aff Fq2Fld) : bool :=
  let q := to_extended Fq2Fld p in
  proj_eqb Fq2Fld (psi q) (mul_by_x Fq2Fld g2_param_b3 BN_X BN_X_IS_NEGATIVE q).
