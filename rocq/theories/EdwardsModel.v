(** Twisted Edwards points: zkstd/src/arithmetic/points/edwards.rs, zkstd/src/macros/curve.rs,
    zkstd/src/macros/curve/edwards.rs and edwards/group.rs, and the operator impls of the only
    instance in the repository, zkstd/tests/jubjub.rs.
    Simplification: the coordinates live in a field with exact arithmetic ([square] is [x * x];
    the limb layer is C02, C03). *)
From Coq Require Import ZArith List Bool.
From Verif Require Import LimbModel FieldModel Algebra.
Import ListNotations.
Local Open Scope fld_scope.

Section Edwards.
Variable K : Fld.
(** curve/edwards/group.rs:67-70, 160-163 [PARAM_D]. *)
Variable d : K.

(** jubjub.rs:242-246, 297-303: the two structs. *)
Record eaff := mkEaff { eax : K; eay : K }.
Record eext := mkEext { eex : K; eey : K; eet : K; eez : K }.

(** edwards.rs:7-25 [add_affine_point] *)
Definition ed_add_affine (lhs rhs : eaff) : eext :=
  let (x0, y0) := lhs in let (x1, y1) := rhs in
  let a := x0 * x1 in
  let b := y0 * y1 in
  let c := d * a * b in
  let h := a + b in
  let e := (x0 + y0) * (x1 + y1) - h in
  let f := 1 - c in
  let g := 1 + c in
  mkEext (e * f) (g * h) (e * h) (f * g).

(** edwards.rs:30-47 [double_affine_point] *)
Definition ed_double_affine (lhs : eaff) : eext :=
  let (x, y) := lhs in
  let a := ksq x in
  let b := ksq y in
  let c := d * a * b in
  let h := a + b in
  let e := ksq (x + y) - h in
  let f := 1 - c in
  let g := 1 + c in
  mkEext (e * f) (g * h) (e * h) (f * g).

(** edwards.rs:52-70 [add_mixed_point] *)
Definition ed_add_mixed (lhs : eaff) (rhs : eext) : eext :=
  let (x0, y0) := lhs in let (x1, y1, t1, z1) := rhs in
  let a := x0 * x1 in
  let b := y0 * y1 in
  let c := d * x0 * y0 * t1 in
  let h := a + b in
  let e := (x0 + y0) * (x1 + y1) - h in
  let f := z1 - c in
  let g := z1 + c in
  mkEext (e * f) (g * h) (e * h) (f * g).

(** edwards.rs:75-94 [add_projective_point] *)
Definition ed_add_ext (lhs rhs : eext) : eext :=
  let (x0, y0, t0, z0) := lhs in let (x1, y1, t1, z1) := rhs in
  let a := x0 * x1 in
  let b := y0 * y1 in
  let c := d * t0 * t1 in
  let d' := z0 * z1 in
  let h := a + b in
  let e := (x0 + y0) * (x1 + y1) - h in
  let f := d' - c in
  let g := d' + c in
  mkEext (e * f) (g * h) (e * h) (f * g).

(** edwards.rs:99-116 [double_projective_point] *)
Definition ed_double_ext (lhs : eext) : eext :=
  let (x, y, _, z) := lhs in
  let a := - ksq x in
  let b := ksq y in
  let c := kdbl (ksq z) in
  let d' := a - b in
  let e := kdbl (x * y) in
  let g := a + b in
  let f := g - c in
  mkEext (e * f) (g * d') (e * d') (f * g).

(** group.rs:15-18, 89-94 [ADDITIVE_IDENTITY] *)
Definition eaff_identity : eaff := mkEaff 0 1.
Definition eext_identity : eext := mkEext 0 1 0 1.
(** group.rs:43-45, 123-125 [is_identity]; group.rs:5-9, 76-80 [PartialEq] *)
Definition eaff_eqb (p q : eaff) : bool := keqb (eax p) (eax q) && keqb (eay p) (eay q).
Definition eaff_is_identity (p : eaff) : bool := eaff_eqb p eaff_identity.
Definition eext_is_identity (p : eext) : bool := keqb (eex p) 0 && keqb (eey p) (eez p).
Definition eext_eqb (p q : eext) : bool :=
  keqb (eex p * eez q) (eex q * eez p) && keqb (eey p * eez q) (eey q * eez p).

(** jubjub.rs:256-265, 313-324 [Neg] *)
Definition eaff_neg (p : eaff) : eaff := mkEaff (- eax p) (eay p).
Definition eext_neg (p : eext) : eext := mkEext (- eex p) (eey p) (- eet p) (eez p).
(** group.rs:20-28, 96-106 [invert] *)
Definition eaff_invert (p : eaff) : option eaff := if kis0 (eax p) then None else Some (mkEaff (- eax p) (eay p)).
Definition eext_invert (p : eext) : option eext :=
  if kis0 (eez p) then None else Some (mkEext (- eex p) (eey p) (- eet p) (eez p)).

(** edwards.rs (macros):30-37 [to_extended]; 61-67 [to_affine], [None] = the panic of [unwrap] *)
Definition eaff_to_extended (p : eaff) : eext := mkEext (eax p) (eay p) (eax p * eay p) 1.
Definition eext_to_affine (p : eext) : option eaff :=
  match kinvert (eez p) with
  | Some z_inv => Some (mkEaff (eex p * z_inv) (eey p * z_inv))
  | None => None
  end.
(** group.rs:39-41, 114-121 [from_x_and_y] *)
Definition eext_from_xy (x y : K) : eext := mkEext x y (x * y) 1.

(** group.rs:47-55, 127-134 [is_on_curve] *)
Definition eaff_is_on_curve (p : eaff) : bool :=
  if kis0 (eax p) then true
  else let xx := ksq (eax p) in let yy := ksq (eay p) in keqb yy (1 + d * xx * yy + xx).
Definition eext_is_on_curve (p : eext) : option bool :=
  if kis0 (eez p) then Some true
  else match eext_to_affine p with Some q => Some (eaff_is_on_curve q) | None => None end.

(** jubjub.rs:248-254, 267-273 and 305-311, 326-332: [+] and [-] on equal types;
    curve.rs:118-124, 150-156, 182-188, 214-220: on mixed types, by value;
    curve.rs:158-180: [&affine - &extended] and its two variants. *)
Definition eaff_add (p q : eaff) : eext := ed_add_ext (eaff_to_extended p) (eaff_to_extended q).
Definition eaff_sub (p q : eaff) : eext := ed_add_ext (eaff_to_extended p) (eaff_to_extended (eaff_neg q)).
Definition eext_add (p q : eext) : eext := ed_add_ext p q.
Definition eext_sub (p q : eext) : eext := ed_add_ext p (eext_neg q).
Definition eaff_add_ext (p : eaff) (q : eext) : eext := ed_add_mixed p q.
Definition eaff_sub_ext (p : eaff) (q : eext) : eext := ed_add_mixed p (eext_neg q).
Definition eext_add_aff (p : eext) (q : eaff) : eext := ed_add_mixed q p.
Definition eext_sub_aff (p : eext) (q : eaff) : eext := ed_add_mixed (eaff_neg q) p.
Definition eaff_ref_sub_ext (p : eaff) (q : eext) : eext := eaff_add_ext p q.

(** edwards.rs:120-131 [scalar_point], on the signed digits [to_nafs] returns; [+=] and [-=] are
    group.rs:166-170, 178-182. *)
Definition ed_scalar_step (point res : eext) (n : naf) : eext :=
  let res := ed_double_ext res in
  match n with NPlus => eext_add res point | NMinus => eext_sub res point | NZero => res end.
Definition ed_scalar_digits (point : eext) (ds : list naf) : eext := fold_left (ed_scalar_step point) ds eext_identity.
(** The scalar is a field element on limbs; [None] would be a panic of [to_nafs]. jubjub.rs:275-281, 334-340 [Mul]. *)
Definition ed_scalar_point (P : fparams) (point : eext) (scalar : l4) : option eext :=
  match fto_nafs P scalar with Some ds => Some (ed_scalar_digits point ds) | None => None end.
Definition eaff_mul (P : fparams) (point : eaff) (scalar : l4) : option eext := ed_scalar_point P (eaff_to_extended point) scalar.
End Edwards.
Arguments mkEaff {K}. Arguments eax {K}. Arguments eay {K}. Arguments mkEext {K}. Arguments eex {K}. Arguments eey {K}.
Arguments eet {K}. Arguments eez {K}.
