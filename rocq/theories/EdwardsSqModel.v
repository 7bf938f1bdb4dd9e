(** The Edwards point operations that square, once more, with the base field's [square] as a parameter: the limb
    [square] loses a carry on some elements (C02, C68), which EdwardsModel.v leaves out.  The other operations of
    EdwardsModel.v use no [square].
    Simplification: [invert] in [to_affine] is the exact inverse. *)
From Coq Require Import ZArith List Bool.
From Verif Require Import LimbModel FieldModel Algebra EdwardsModel.
Import ListNotations.
Local Open Scope fld_scope.

Section EdwardsSq.
Variable K : Fld.
Variable sq : K -> K.
Variable d : K.

(** edwards.rs:30-47 [double_affine_point] *)
Definition sqe_double_affine (lhs : eaff K) : eext K :=
  let (x, y) := lhs in
  let a := sq x in
  let b := sq y in
  let c := d * a * b in
  let h := a + b in
  let e := sq (x + y) - h in
  let f := 1 - c in
  let g := 1 + c in
  mkEext (e * f) (g * h) (e * h) (f * g).
(** edwards.rs:99-116 [double_projective_point] *)
Definition sqe_double_ext (lhs : eext K) : eext K :=
  let (x, y, _, z) := lhs in
  let a := - sq x in
  let b := sq y in
  let c := kdbl (sq z) in
  let d' := a - b in
  let e := kdbl (x * y) in
  let g := a + b in
  let f := g - c in
  mkEext (e * f) (g * d') (e * d') (f * g).
(** group.rs:47-55, 127-134 [is_on_curve] *)
Definition sqe_aff_is_on_curve (p : eaff K) : bool :=
  if kis0 (eax p) then true
  else let xx := sq (eax p) in let yy := sq (eay p) in keqb yy (1 + d * xx * yy + xx).
Definition sqe_ext_is_on_curve (p : eext K) : option bool :=
  if kis0 (eez p) then Some true
  else match eext_to_affine K p with Some q => Some (sqe_aff_is_on_curve q) | None => None end.
(** edwards.rs:120-131 [scalar_point] *)
Definition sqe_scalar_step (point res : eext K) (n : naf) : eext K :=
  let res := sqe_double_ext res in
  match n with NPlus => eext_add K d res point | NMinus => eext_sub K d res point | NZero => res end.
Definition sqe_scalar_digits (point : eext K) (ds : list naf) : eext K := fold_left (sqe_scalar_step point) ds (eext_identity K).
Definition sqe_scalar_point (P : fparams) (point : eext K) (scalar : l4) : option (eext K) :=
  match fto_nafs P scalar with Some ds => Some (sqe_scalar_digits point ds) | None => None end.
(** jubjub.rs:275-281 [Mul] of an affine point by a scalar. *)
Definition sqe_aff_mul (P : fparams) (point : eaff K) (scalar : l4) : option (eext K) := sqe_scalar_point P (eaff_to_extended K point) scalar.

(** The elements each function squares (specification of the exactness conditions). *)
Definition ed_double_affine_squares (p : eaff K) : list K := [eax p; eay p; eax p + eay p].
Definition ed_double_ext_squares (p : eext K) : list K := [eex p; eey p; eez p].
Definition ed_on_curve_squares (p : eaff K) : list K := if kis0 (eax p) then [] else [eax p; eay p].
(** ... along the run of [scalar_point]: one doubling per digit. *)
Fixpoint ed_digits_squares (point res : eext K) (ds : list naf) : list K :=
  match ds with [] => [] | n :: ds => ed_double_ext_squares res ++ ed_digits_squares point (ed_scalar_step K d point res n) ds end.
Definition ed_scalar_squares (P : fparams) (point : eext K) (scalar : l4) : list K :=
  match fto_nafs P scalar with Some ds => ed_digits_squares point (eext_identity K) ds | None => [] end.
End EdwardsSq.
