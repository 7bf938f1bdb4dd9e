(** The point arithmetic of WeierModel.v once more, with the base field's [square] as a parameter:
    the limb functions of Fr and Fq lose a carry in [square] on some elements (C02), which WeierModel
    leaves out.  [lf_sq] is the limb [square]; [fq2_sq] is the [square] of Fq2 built on it. *)
From Coq Require Import ZArith List Bool.
From Verif Require Import LimbModel LimbProofs FieldModel FieldSpec FieldProofs Algebra ExtModel ExtParams ExtFrob CurveSpec WeierModel CurveParams.
Import ListNotations.
Local Open Scope fld_scope.

Section WeierSq.
Variable F : Fld.
Variable sq : F -> F.
Variables b b3 : F.

(** group.rs:59-65 [is_on_curve] (affine). *)
Definition sq_aff_is_on_curve (p : aff F) : bool :=
  if ainf p then true else keqb (sq (ay p)) (sq (ax p) * ax p + b).
(** group.rs:143-150 [is_on_curve] (projective). *)
Definition sq_proj_is_on_curve (p : proj F) : bool :=
  if proj_is_identity F p then true else keqb (sq (jy p) * jz p) (sq (jx p) * jx p + b * sq (jz p) * jz p).
(** weierstrass.rs:39-60 [double_affine_point]. *)
Definition sq_double_affine_point (p : aff F) : proj F :=
  let x := ax p in let y := ay p in
  let t0 := sq y in
  let z3 := kdbl (kdbl (kdbl t0)) in
  let x3 := b3 * z3 in
  let y3 := t0 + b3 in
  let z3 := y * z3 in
  let t1 := kdbl b3 in
  let t2 := t1 + b3 in
  let t0 := t0 - t2 in
  let y3 := t0 * y3 in
  let y3 := x3 + y3 in
  let t1 := x * y in
  let x3 := t0 * t1 in
  let x3 := kdbl x3 in
  Prj x3 y3 z3.
(** weierstrass.rs:6-35 [add_affine_point]. *)
Definition sq_add_affine_point (lhs rhs : aff F) : proj F :=
  if aff_is_identity F lhs then to_extended F rhs
  else if aff_is_identity F rhs then to_extended F lhs
  else
  let x0 := ax lhs in let y0 := ay lhs in let x1 := ax rhs in let y1 := ay rhs in
  if keqb x0 x1 then if keqb y0 y1 then sq_double_affine_point lhs else (proj_identity F)
  else
  let s := y0 - y1 in
  let u := x0 - x1 in
  let uu := sq u in
  let w := sq s - uu * (x0 + x1) in
  let uuu := uu * u in
  Prj (u * w) (s * (x0 * uu - w) - y0 * uuu) uuu.
(** weierstrass.rs:63-97 [add_mixed_point]. *)
Definition sq_add_mixed_point (lhs : aff F) (rhs : proj F) : proj F :=
  if aff_is_identity F lhs then rhs
  else if proj_is_identity F rhs then to_extended F lhs
  else
  let x1 := jx rhs in let y1 := jy rhs in let z1 := jz rhs in
  let x2 := ax lhs in let y2 := ay lhs in
  let s1 := y2 * z1 in
  let u1 := x2 * z1 in
  if keqb u1 x1 then if keqb s1 y1 then sq_double_affine_point lhs else to_extended F (aff_identity F)
  else
  let u := s1 - y1 in
  let uu := sq u in
  let v := u1 - x1 in
  let vv := sq v in
  let vvv := vv * v in
  let r := vv * x1 in
  let a := uu * z1 - vvv - kdbl r in
  Prj (v * a) (u * (r - a) - vvv * y1) (vvv * z1).
(** weierstrass.rs:140-163 [double_projective_point]. *)
Definition sq_double_projective_point (p : proj F) : proj F :=
  let x := jx p in let y := jy p in let z := jz p in
  let t0 := sq y in
  let z3 := kdbl (kdbl (kdbl t0)) in
  let t1 := y * z in
  let t2 := sq z in
  let t2 := t2 * b3 in
  let x3 := t2 * z3 in
  let y3 := t0 + t2 in
  let z3 := t1 * z3 in
  let t1 := kdbl t2 in
  let t2 := t1 + t2 in
  let t0 := t0 - t2 in
  let y3 := t0 * y3 in
  let y3 := x3 + y3 in
  let t1 := x * y in
  let x3 := t0 * t1 in
  let x3 := kdbl x3 in
  Prj x3 y3 z3.
(** weierstrass.rs:101-136 [add_projective_point]. *)
Definition sq_add_projective_point (lhs rhs : proj F) : proj F :=
  if proj_is_identity F lhs then rhs
  else if proj_is_identity F rhs then lhs
  else
  let x0 := jx lhs in let y0 := jy lhs in let z0 := jz lhs in
  let x1 := jx rhs in let y1 := jy rhs in let z1 := jz rhs in
  let s1 := y0 * z1 in
  let s2 := y1 * z0 in
  let u1 := x0 * z1 in
  let u2 := x1 * z0 in
  if keqb u1 u2 then if keqb s1 s2 then sq_double_projective_point lhs else (proj_identity F)
  else
  let s := s1 - s2 in
  let u := u1 - u2 in
  let uu := sq u in
  let v := z0 * z1 in
  let w := sq s * v - uu * (u1 + u2) in
  let uuu := uu * u in
  Prj (u * w) (s * (u1 * uu - w) - s1 * uuu) (uuu * v).

(** g1.rs:73-79, 93-99, 158-164, 178-184. *)
Definition sq_proj_sub (p q : proj F) : proj F := sq_add_projective_point p (proj_neg F q).
(** weierstrass.rs:167-178 [scalar_point]. *)
Definition sq_scalar_step (point res : proj F) (d : naf) : proj F :=
  let res := sq_double_projective_point res in
  match d with NPlus => sq_add_projective_point res point | NMinus => sq_proj_sub res point | NZero => res end.
Definition sq_scalar_digits (point : proj F) (ds : list naf) : proj F :=
  fold_left (sq_scalar_step point) ds (proj_identity F).
Definition sq_scalar_point (P : fparams) (point : proj F) (scalar : l4) : option (proj F) :=
  match fto_nafs P scalar with Some ds => Some (sq_scalar_digits point ds) | None => None end.

(** The elements each function squares (specification of the exactness conditions). *)
Definition double_affine_squares (p : aff F) : list F := [ay p].
Definition double_projective_squares (p : proj F) : list F := [jy p; jz p].
Definition on_curve_squares (p : aff F) : list F := if ainf p then [] else [ay p; ax p].
Definition proj_on_curve_squares (p : proj F) : list F := if proj_is_identity F p then [] else [jy p; jx p; jz p].
Definition add_affine_squares (p q : aff F) : list F :=
  if ainf p || ainf q then []
  else if keqb (ax p) (ax q) then if keqb (ay p) (ay q) then double_affine_squares p else []
  else [ax p - ax q; ay p - ay q].
Definition add_mixed_squares (p : aff F) (q : proj F) : list F :=
  if ainf p || proj_is_identity F q then []
  else if keqb (ax p * jz q) (jx q) then if keqb (ay p * jz q) (jy q) then double_affine_squares p else []
  else [ay p * jz q - jy q; ax p * jz q - jx q].
Definition add_projective_squares (p q : proj F) : list F :=
  if proj_is_identity F p || proj_is_identity F q then []
  else if keqb (jx p * jz q) (jx q * jz p) then if keqb (jy p * jz q) (jy q * jz p) then double_projective_squares p else []
  else [jx p * jz q - jx q * jz p; jy p * jz q - jy q * jz p].
(** ... along the run of [scalar_point]. *)
Definition step_squares (point res : proj F) (d : naf) : list F :=
  let res' := double_projective_point F b3 res in
  double_projective_squares res ++
  match d with NPlus => add_projective_squares res' point | NMinus => add_projective_squares res' (proj_neg F point) | NZero => [] end.
Fixpoint digits_squares (point res : proj F) (ds : list naf) : list F :=
  match ds with [] => [] | d :: ds => step_squares point res d ++ digits_squares point (scalar_step F b3 point res d) ds end.
Definition scalar_squares (P : fparams) (point : proj F) (scalar : l4) : list F :=
  match fto_nafs P scalar with Some ds => digits_squares point (proj_identity F) ds | None => [] end.
End WeierSq.

(** bits_256/normal.rs [square] on the elements of Fr and Fq (LimbModel.v [square], FieldModel.v [fsquare]). *)
Lemma redb_square (P : fparams) (m : Z) (OK : params_ok P m) (a : le_t m) : redb m (fsquare P (lf_limbs m a)) = true.
Proof.
  apply redb_reduced. destruct (square_mod P m OK _ _ (lf_rep P m OK a)) as (W & L & _).
  split; [apply limbs_ok_wf, W|rewrite limb_value_val; apply L].
Qed.
Definition lf_sq (P : fparams) (m : Z) (OK : params_ok P m) (a : le_t m) : le_t m := exist _ (fsquare P (lf_limbs m a)) (redb_square P m OK a).
Definition fr_sq : FrFld -> FrFld := lf_sq fr R_MOD fr_ok.
Definition fq_sq : FqFld -> FqFld := lf_sq fq Q_MOD fq_ok.
(** bn254/src/fqn.rs:365-369 [square_ext_field] of Fq2. *)
Definition fq2_sq (a : Fq2Fld) : Fq2Fld := Q2 (fq_sq (c0 a) - fq_sq (c1 a)) (kdbl (c0 a * c1 a)).
