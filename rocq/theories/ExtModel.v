(** Model of the tower Fq2, Fq6, Fq12: bn254/src/fqn.rs and the macros
    zkstd/src/macros/extension_field.rs, extension_field/{group,ring,field}.rs.
    The base field is any [Fld] (Fq in the library); arrays [[c0, c1]] are records. *)
From Coq Require Import ZArith List Bool.
From Verif Require Import LimbModel FieldModel Algebra.
Import ListNotations.

(** ** Operator forms generated by extension_field/group.rs for every level. *)
(** The by-value [+], [-] and [*] of one level. *)
Record ops (T : Type) := mkOps { o_add : T -> T -> T; o_sub : T -> T -> T; o_mul : T -> T -> T }.
Arguments mkOps {T}. Arguments o_add {T}. Arguments o_sub {T}. Arguments o_mul {T}.
Section RefForms.
Context {T : Type} (o : ops T).
Definition ext_add_ref_ref (a b : T) : T := o_add o a b.          (* group.rs:53-63, coordinatewise *)
Definition ext_add_ref_val (a b : T) : T := o_add o a b.          (* group.rs:65-75 *)
Definition ext_add_assign (a b : T) : T := o_add o a b.           (* group.rs:77-81 *)
(** group.rs:89-95 [Add<&T> for T]: [self + rhs] resolves to itself; 83-87 [AddAssign<&T>]
    calls it.  [fuel] counts stack frames, [None] = exhausted. *)
Fixpoint ext_add_val_ref (fuel : nat) (a b : T) : option T :=
  match fuel with O => None | S f => ext_add_val_ref f a b end.
Definition ext_add_assign_ref (fuel : nat) (a b : T) : option T := ext_add_val_ref fuel a b.
Definition ext_sub_assign (a b : T) : T := o_sub o a b.           (* group.rs:123-127 *)
Definition ext_sub_assign_ref (a b : T) : T := o_sub o a b.       (* group.rs:129-133 *)
Definition ext_sub_ref_ref (a b : T) : T := o_mul o a b.          (* group.rs:135-141: [*self * *rhs] *)
Definition ext_sub_val_ref (a b : T) : T := o_mul o a b.          (* group.rs:143-149 *)
Definition ext_sub_ref_val (a b : T) : T := o_mul o a b.          (* group.rs:151-157 *)
Definition ext_mul_assign (a b : T) : T := o_mul o a b.           (* group.rs:168-172 *)
Definition ext_mul_ref_ref (a b : T) : T := o_add o a b.          (* group.rs:180-186: [*self + *rhs] *)
Definition ext_mul_assign_ref (a b : T) : T := ext_mul_ref_ref a b. (* group.rs:174-178 *)
Definition ext_mul_val_ref (a b : T) : T := o_add o a b.          (* group.rs:188-194 *)
End RefForms.

Section Tower.
Variable F : Fld.
Local Open Scope fld_scope.

(** ** Fq2, fqn.rs:13, [Fq2([c0, c1])] with u^2 = -1 *)
Record q2 := Q2 { c0 : F; c1 : F }.
(** group.rs:197-199, 201-205. *)
Definition q2_0 : q2 := Q2 0 0.
Definition q2_1 : q2 := Q2 1 0.
(** group.rs:28-36, 40-51, 97-108, 110-121. *)
Definition q2_eqb (a b : q2) : bool := keqb (c0 a) (c0 b) && keqb (c1 a) (c1 b).
Definition q2_add (a b : q2) : q2 := Q2 (c0 a + c0 b) (c1 a + c1 b).
Definition q2_neg (a : q2) : q2 := Q2 (- c0 a) (- c1 a).
Definition q2_sub (a b : q2) : q2 := Q2 (c0 a - c0 b) (c1 a - c1 b).
(** extension_field.rs:66-72 [double], 42-44 [is_zero]. *)
Definition q2_dbl (a : q2) : q2 := Q2 (kdbl (c0 a)) (kdbl (c1 a)).
Definition q2_is0 (a : q2) : bool := kis0 (c0 a) && kis0 (c1 a).
(** fqn.rs:359-363 [mul_ext_field], 365-369 [square_ext_field]. *)
Definition q2_mul (a b : q2) : q2 :=
  Q2 (c0 a * c0 b - c1 a * c1 b) (c0 a * c1 b + c1 a * c0 b).
Definition q2_sq (a : q2) : q2 := Q2 (ksq (c0 a) - ksq (c1 a)) (kdbl (c0 a * c1 a)).
(** fqn.rs:348-357 [get_invert]; the inner [unwrap] is [None] of the inner option. *)
Definition q2_invert_full (a : q2) : option (option q2) :=
  if q2_is0 a then Some None
  else match kinvert (ksq (c0 a) + ksq (c1 a)) with
       | None => None   (* unwrap panics *)
       | Some t => Some (Some (Q2 (t * c0 a) (t * - c1 a)))
       end.
Definition q2_invert (a : q2) : option q2 := match q2_invert_full a with Some r => r | None => None end.
(** fqn.rs:371-384 [mul_by_nonres]: by 9 + u. *)
Definition q2_nonres (a : q2) : q2 :=
  let res := q2_dbl (q2_dbl (q2_dbl a)) in
  Q2 (c0 res + (c0 a - c1 a)) (c1 res + (c0 a + c1 a)).
(** fqn.rs:386-388 [conjugate], 390-392 [frobenius_map], 394-399 [frobenius_maps]. *)
Definition q2_conj (a : q2) : q2 := Q2 (c0 a) (- c1 a).
Definition q2_frob (a : q2) : q2 := q2_conj a.
Definition q2_frobs (tab : list F) (a : q2) (power : nat) : q2 :=
  Q2 (c0 a) (c1 a * nth (power mod 2) tab 0).
(** [Mul<Fq> for Fq2]-style scaling used by [untwist] (fqn.rs:27-34). *)
Definition q2_scale (a : q2) (k : F) : q2 := Q2 (c0 a * k) (c1 a * k).

(** ** Fq6, fqn.rs:17 *)
Record q6 := Q6 { d0 : q2; d1 : q2; d2 : q2 }.
Definition q6_0 : q6 := Q6 q2_0 q2_0 q2_0.
Definition q6_1 : q6 := Q6 q2_1 q2_0 q2_0.
Definition q6_eqb (a b : q6) : bool := q2_eqb (d0 a) (d0 b) && q2_eqb (d1 a) (d1 b) && q2_eqb (d2 a) (d2 b).
Definition q6_add (a b : q6) : q6 := Q6 (q2_add (d0 a) (d0 b)) (q2_add (d1 a) (d1 b)) (q2_add (d2 a) (d2 b)).
Definition q6_neg (a : q6) : q6 := Q6 (q2_neg (d0 a)) (q2_neg (d1 a)) (q2_neg (d2 a)).
Definition q6_sub (a b : q6) : q6 := Q6 (q2_sub (d0 a) (d0 b)) (q2_sub (d1 a) (d1 b)) (q2_sub (d2 a) (d2 b)).
Definition q6_dbl (a : q6) : q6 := Q6 (q2_dbl (d0 a)) (q2_dbl (d1 a)) (q2_dbl (d2 a)).
Definition q6_is0 (a : q6) : bool := q2_is0 (d0 a) && q2_is0 (d1 a) && q2_is0 (d2 a).
(** fqn.rs:419-456 [mul_ext_field]. *)
Definition q6_mul (a b : q6) : q6 :=
  let aa := q2_mul (d0 a) (d0 b) in
  let bb := q2_mul (d1 a) (d1 b) in
  let cc := q2_mul (d2 a) (d2 b) in
  let t1 := q2_add (d1 b) (d2 b) in
  let tmp := q2_add (d1 a) (d2 a) in
  let t1 := q2_mul t1 tmp in let t1 := q2_sub t1 bb in let t1 := q2_sub t1 cc in
  let t1 := q2_nonres t1 in let t1 := q2_add t1 aa in
  let t3 := q2_add (d0 b) (d2 b) in
  let tmp := q2_add (d0 a) (d2 a) in
  let t3 := q2_mul t3 tmp in let t3 := q2_sub t3 aa in let t3 := q2_add t3 bb in let t3 := q2_sub t3 cc in
  let t2 := q2_add (d0 b) (d1 b) in
  let tmp := q2_add (d0 a) (d1 a) in
  let t2 := q2_mul t2 tmp in let t2 := q2_sub t2 aa in let t2 := q2_sub t2 bb in
  let t2 := q2_add t2 (q2_nonres cc) in
  Q6 t1 t2 t3.
(** fqn.rs:458-475 [square_ext_field]. *)
Definition q6_sq (a : q6) : q6 :=
  let s0 := q2_sq (d0 a) in
  let ab := q2_mul (d0 a) (d1 a) in
  let s1 := q2_dbl ab in
  let s2 := d0 a in let s2 := q2_sub s2 (d1 a) in let s2 := q2_add s2 (d2 a) in let s2 := q2_sq s2 in
  let bc := q2_mul (d1 a) (d2 a) in
  let s3 := q2_dbl bc in
  let s4 := q2_sq (d2 a) in
  Q6 (q2_add (q2_nonres s3) s0) (q2_add (q2_nonres s4) s1)
     (q2_sub (q2_sub (q2_add (q2_add s1 s2) s3) s0) s4).
(** fqn.rs:477-479 [mul_by_nonres]: by v. *)
Definition q6_nonres (a : q6) : q6 := Q6 (q2_nonres (d2 a)) (d0 a) (d1 a).
(** fqn.rs:403-417 [get_invert]. *)
Definition q6_invert (a : q6) : option q6 :=
  let e0 := q2_sub (q2_sq (d0 a)) (q2_nonres (q2_mul (d1 a) (d2 a))) in
  let e1 := q2_sub (q2_nonres (q2_sq (d2 a))) (q2_mul (d0 a) (d1 a)) in
  let e2 := q2_sub (q2_sq (d1 a)) (q2_mul (d0 a) (d2 a)) in
  let tmp := q2_nonres (q2_add (q2_mul (d1 a) e2) (q2_mul (d2 a) e1)) in
  let tmp := q2_add tmp (q2_mul (d0 a) e0) in
  match q2_invert tmp with
  | Some t => Some (Q6 (q2_mul t e0) (q2_mul t e1) (q2_mul t e2))
  | None => None
  end.
(** fqn.rs:481-487 [frobenius_map], 489-495 [frobenius_maps]. *)
Definition q6_frob (t1 t2 : list q2) (a : q6) : q6 :=
  Q6 (q2_frob (d0 a)) (q2_mul (q2_frob (d1 a)) (nth 1 t1 q2_0)) (q2_mul (q2_frob (d2 a)) (nth 1 t2 q2_0)).
Definition q6_frobs (t0 : list F) (t1 t2 : list q2) (a : q6) (power : nat) : q6 :=
  Q6 (q2_frobs t0 (d0 a) power)
     (q2_mul (q2_frobs t0 (d1 a) power) (nth (power mod 6) t1 q2_0))
     (q2_mul (q2_frobs t0 (d2 a) power) (nth (power mod 6) t2 q2_0)).
(** fqn.rs:497-503 [mul_by_1], 505-513 [mul_by_01]. *)
Definition q6_mul_by_1 (a : q6) (b1 : q2) : q6 :=
  Q6 (q2_nonres (q2_mul (d2 a) b1)) (q2_mul (d0 a) b1) (q2_mul (d1 a) b1).
Definition q6_mul_by_01 (a : q6) (b0 b1 : q2) : q6 :=
  let aa := q2_mul (d0 a) b0 in
  let bb := q2_mul (d1 a) b1 in
  let t1 := q2_add (q2_nonres (q2_sub (q2_mul (q2_add (d1 a) (d2 a)) b1) bb)) aa in
  let t2 := q2_sub (q2_sub (q2_mul (q2_add b0 b1) (q2_add (d0 a) (d1 a))) aa) bb in
  let t3 := q2_add (q2_sub (q2_mul (q2_add (d0 a) (d2 a)) b0) aa) bb in
  Q6 t1 t2 t3.

(** ** Fq12, fqn.rs:21 *)
Record q12 := Q12 { e0 : q6; e1 : q6 }.
Definition q12_0 : q12 := Q12 q6_0 q6_0.
Definition q12_1 : q12 := Q12 q6_1 q6_0.
Definition q12_eqb (a b : q12) : bool := q6_eqb (e0 a) (e0 b) && q6_eqb (e1 a) (e1 b).
Definition q12_add (a b : q12) : q12 := Q12 (q6_add (e0 a) (e0 b)) (q6_add (e1 a) (e1 b)).
Definition q12_neg (a : q12) : q12 := Q12 (q6_neg (e0 a)) (q6_neg (e1 a)).
Definition q12_sub (a b : q12) : q12 := Q12 (q6_sub (e0 a) (e0 b)) (q6_sub (e1 a) (e1 b)).
Definition q12_dbl (a : q12) : q12 := Q12 (q6_dbl (e0 a)) (q6_dbl (e1 a)).
Definition q12_is0 (a : q12) : bool := q6_is0 (e0 a) && q6_is0 (e1 a).
(** fqn.rs:523-535 [mul_ext_field]. *)
Definition q12_mul (a b : q12) : q12 :=
  let aa := q6_mul (e0 a) (e0 b) in
  let bb := q6_mul (e1 a) (e1 b) in
  let o := q6_add (e0 b) (e1 b) in
  let r1 := q6_add (e1 a) (e0 a) in
  let r1 := q6_mul r1 o in let r1 := q6_sub r1 aa in let r1 := q6_sub r1 bb in
  let r0 := q6_nonres bb in let r0 := q6_add r0 aa in
  Q12 r0 r1.
(** fqn.rs:537-544 [square_ext_field]. *)
Definition q12_sq (a : q12) : q12 :=
  let ab := q6_mul (e0 a) (e1 a) in
  let s := q6_add (e0 a) (e1 a) in
  let r0 := q6_add (q6_nonres (e1 a)) (e0 a) in
  let tmp := q6_sub (q6_mul r0 s) ab in
  Q12 (q6_sub tmp (q6_nonres ab)) (q6_dbl ab).
(** fqn.rs:517-521 [get_invert]. *)
Definition q12_invert (a : q12) : option q12 :=
  match q6_invert (q6_sub (q6_sq (e0 a)) (q6_nonres (q6_sq (e1 a)))) with
  | Some t => Some (Q12 (q6_mul (e0 a) t) (q6_mul (e1 a) (q6_neg t)))
  | None => None
  end.
(** fqn.rs:546-548 [conjugate]. *)
Definition q12_conj (a : q12) : q12 := Q12 (e0 a) (q6_neg (e1 a)).
(** fqn.rs:550-556 [frobenius_map], 558-568 [frobenius_maps]. *)
Definition q12_frob (t1 t2 t12 : list q2) (a : q12) : q12 :=
  Q12 (q6_frob t1 t2 (e0 a))
      (q6_mul (q6_frob t1 t2 (e1 a)) (Q6 (nth 1 t12 q2_0) q2_0 q2_0)).
Definition q12_frobs (t0 : list F) (t1 t2 t12 : list q2) (a : q12) (power : nat) : q12 :=
  let r1 := q6_frobs t0 t1 t2 (e1 a) power in
  let g := nth (power mod 12) t12 q2_0 in
  Q12 (q6_frobs t0 t1 t2 (e0 a) power)
      (Q6 (q2_mul (d0 r1) g) (q2_mul (d1 r1) g) (q2_mul (d2 r1) g)).
(** fqn.rs:570-587 [mul_by_034]. *)
Definition q12_mul_by_034 (a : q12) (b0 b3 b4 : q2) : q12 :=
  let t0 := Q6 (q2_mul (d0 (e0 a)) b0) (q2_mul (d1 (e0 a)) b0) (q2_mul (d2 (e0 a)) b0) in
  let t1 := q6_mul_by_01 (e1 a) b3 b4 in
  let o := q2_add b0 b3 in
  let t2 := q6_add (e0 a) (e1 a) in
  let t2 := q6_mul_by_01 t2 o b4 in
  let t2 := q6_sub t2 t0 in
  let b := q6_sub t2 t1 in
  let t1 := q6_nonres t1 in
  Q12 (q6_add t0 t1) b.

(** fqn.rs:26-37 [untwist]. *)
Definition untwist (f : q12) (coeffs : q2 * q2 * q2) (gx gy : F) : q12 :=
  let '(a0, a1, a2) := coeffs in
  q12_mul_by_034 f (q2_scale a0 gy) (q2_scale a1 gx) a2.

(** fqn.rs:40-51 [fp4_square], 56-92 [cyclotomic_square]. *)
Definition fp4_square (a b : q2) : q2 * q2 :=
  let t0 := q2_sq a in
  let t1 := q2_sq b in
  let t2 := q2_nonres t1 in
  let r0 := q2_add t2 t0 in
  let t2 := q2_add a b in let t2 := q2_sq t2 in let t2 := q2_sub t2 t0 in
  (r0, q2_sub t2 t1).
Definition cyclotomic_square (f : q12) : q12 :=
  let z0 := d0 (e0 f) in let z4 := d1 (e0 f) in let z3 := d2 (e0 f) in
  let z2 := d0 (e1 f) in let z1 := d1 (e1 f) in let z5 := d2 (e1 f) in
  let (t0, t1) := fp4_square z0 z1 in
  let z0 := q2_sub t0 z0 in let z0 := q2_add (q2_dbl z0) t0 in
  let z1 := q2_add t1 z1 in let z1 := q2_add (q2_dbl z1) t1 in
  let (t0, t1) := fp4_square z2 z3 in
  let (t2, t3) := fp4_square z4 z5 in
  let z4 := q2_sub t0 z4 in let z4 := q2_add (q2_dbl z4) t0 in
  let z5 := q2_add t1 z5 in let z5 := q2_add (q2_dbl z5) t1 in
  let t0 := q2_nonres t3 in
  let z2 := q2_add t0 z2 in let z2 := q2_add (q2_dbl z2) t0 in
  let z3 := q2_sub t2 z3 in let z3 := q2_add (q2_dbl z3) t2 in
  Q12 (Q6 z0 z4 z3) (Q6 z2 z1 z5).

(** fqn.rs:95-104 [cycolotomic_exp], for the 64-bit exponent [x]. *)
Definition cyclotomic_exp (x : Z) (f : q12) : q12 :=
  fold_left (fun res bit => let res := cyclotomic_square res in if Z.eqb bit 1 then q12_mul res f else res)
    (word_bits_be x) q12_1.

(** fqn.rs:39-150 [final_exp]; [None] = [unwrap] panic. *)
Definition final_exp (x : Z) (tab0 : list F) (tab1 tab2 tab12 : list q2) (f : q12) : option q12 :=
  let frobs := q12_frobs tab0 tab1 tab2 tab12 in
  let mul := q12_mul in
  let f1 := q12_conj f in
  match q12_invert f with
  | None => None
  | Some f2 =>
      let f2 := mul f2 f1 in
      let r := mul (frobs f2 2%nat) f2 in
      let fp := frobs r 1%nat in
      let fp2 := frobs r 2%nat in
      let fp3 := frobs fp2 1%nat in
      let fu := cyclotomic_exp x r in
      let fu2 := cyclotomic_exp x fu in
      let fu3 := cyclotomic_exp x fu2 in
      let y3 := q12_conj (frobs fu 1%nat) in
      let fu2p := frobs fu2 1%nat in
      let fu3p := frobs fu3 1%nat in
      let y2 := frobs fu2 2%nat in
      let y0 := mul (mul fp fp2) fp3 in
      let y1 := q12_conj r in
      let y5 := q12_conj fu2 in
      let y4 := q12_conj (mul fu fu2p) in
      let y6 := mul (mul (cyclotomic_square (q12_conj (mul fu3 fu3p))) y4) y5 in
      let t1 := mul (mul y3 y5) y6 in
      let y6 := mul y6 y2 in
      let t1 := cyclotomic_square (mul (cyclotomic_square t1) y6) in
      let t0 := mul t1 y1 in
      let t1 := mul t1 y0 in
      Some (mul (cyclotomic_square t0) t1)
  end.

(** fqn.rs:310-322 [Fq2::pow_vartime]. *)
Definition q2_pow_vartime (a : q2) (by_ : l4) : q2 :=
  fold_left (fun res bit => let res := q2_sq res in if Z.eqb bit 1 then q2_mul res a else res)
    (flat_map word_bits_be (rev (limbs by_))) q2_1.
(** fqn.rs:266-305 [Fq2::sqrt]. *)
Definition q2_sqrt (a : q2) : option q2 :=
  if q2_is0 a then Some q2_0 else
  let a1 := q2_pow_vartime a (L4 0x4f082305b61f3f51 0x65e05aa45a1c72a3 0x6e14116da0605617 0x0c19139cb84c680a) in
  let alpha := q2_mul (q2_sq a1) a in
  let x0 := q2_mul a1 a in
  let s := if q2_eqb alpha (q2_neg q2_1) then Q2 (- c1 x0) (c0 x0)
           else q2_mul (q2_pow_vartime (q2_add alpha q2_1)
                  (L4 0x9e10460b6c3e7ea3 0xcbc0b548b438e546 0xdc2822db40c0ac2e 0x183227397098d014)) x0 in
  if q2_eqb (q2_sq s) a then Some s else None.
End Tower.
Arguments Q2 {_}. Arguments c0 {_}. Arguments c1 {_}. Arguments Q6 {_}. Arguments d0 {_}. Arguments d1 {_}. Arguments d2 {_}.
Arguments Q12 {_}. Arguments e0 {_}. Arguments e1 {_}.

(** [Fq2::square] on limbs, with the [Fq::square] of the code (fqn.rs:365-369). *)
Definition fq2_square_limbs (a : l4 * l4) : l4 * l4 :=
  let (x, y) := a in (fsub fq (fsquare fq x) (fsquare fq y), fdouble fq (fmul fq x y)).
(** [Fq2] product on limbs (fqn.rs:359-363). *)
Definition fq2_mul_limbs (a b : l4 * l4) : l4 * l4 :=
  let (x, y) := a in let (z, w) := b in
  (fsub fq (fmul fq x z) (fmul fq y w), fadd fq (fmul fq x w) (fmul fq y z)).
(** fqn.rs:252-264 [Fq2::lexicographically_largest], on limbs. *)
Definition fq2_lexicographically_largest (a : l4 * l4) : bool :=
  lexicographically_largest (snd a) || (eqb4 (snd a) fzero && lexicographically_largest (fst a)).
