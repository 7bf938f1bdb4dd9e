(** Model of the short Weierstrass point arithmetic: zkstd/src/arithmetic/points/weierstrass.rs,
    zkstd/src/macros/curve.rs, zkstd/src/macros/curve/weierstrass.rs and weierstrass/group.rs, and
    the operator impls of bn254/src/g1.rs, g2.rs and grumpkin/src/curve.rs (which are identical up
    to names).  Parametric in the base field and in the constants PARAM_B and PARAM_3B.
    Simplification: base-field [square] and [invert] are those of [Fld] (see C02, C03). *)
From Coq Require Import ZArith List Bool.
From Verif Require Import LimbModel FieldModel Algebra.
Import ListNotations.
Local Open Scope fld_scope.

Section Weier.
Variable F : Fld.
Variables b b3 : F.

(** g1.rs:17-22 [G1Affine], 118-123 [G1Projective]; likewise g2.rs:15-20, 83-88 and
    grumpkin/src/curve.rs:10-15, 101-106. *)
Record aff := Aff { ax : F; ay : F; ainf : bool }.
Record proj := Prj { jx : F; jy : F; jz : F }.

(** group.rs:22-26 and 106-110 [ADDITIVE_IDENTITY]. *)
Definition aff_identity : aff := Aff 0 1 true.
Definition proj_identity : proj := Prj 0 1 0.
(** group.rs:55-57, 139-141 [is_identity]. *)
Definition aff_is_identity (p : aff) : bool := ainf p.
Definition proj_is_identity (p : proj) : bool := keqb (jz p) 0.
(** group.rs:47-53, 131-137 [from_x_and_y]. *)
Definition aff_from_x_and_y (x y : F) : aff := Aff x y false.
Definition proj_from_x_and_y (x y : F) : proj := Prj x y 1.
(** group.rs:59-65 [is_on_curve] (affine). *)
Definition aff_is_on_curve (p : aff) : bool :=
  if ainf p then true else keqb (ksq (ay p)) (ksq (ax p) * ax p + b).
(** group.rs:143-150 [is_on_curve] (projective). *)
Definition proj_is_on_curve (p : proj) : bool :=
  if proj_is_identity p then true else keqb (ksq (jy p) * jz p) (ksq (jx p) * jx p + b * ksq (jz p) * jz p).
(** group.rs:5-13 [PartialEq] (affine). *)
Definition aff_eqb (p q : aff) : bool :=
  if aff_is_identity p || aff_is_identity q then aff_is_identity p && aff_is_identity q
  else keqb (ax p) (ax q) && keqb (ay p) (ay q).
(** group.rs:89-97 [PartialEq] (projective). *)
Definition proj_eqb (p q : proj) : bool :=
  if proj_is_identity p || proj_is_identity q then proj_is_identity p && proj_is_identity q
  else keqb (jx p * jz q) (jx q * jz p) && keqb (jy p * jz q) (jy q * jz p).
(** group.rs:28-37, 112-121 [Group::invert]. *)
Definition aff_invert (p : aff) : option aff := if ainf p then None else Some (Aff (ax p) (- ay p) false).
Definition proj_invert (p : proj) : option proj := if kis0 (jz p) then None else Some (Prj (jx p) (- jy p) (jz p)).
(** g1.rs:81-91, 166-176 [Neg]. *)
Definition aff_neg (p : aff) : aff := Aff (ax p) (- ay p) (ainf p).
Definition proj_neg (p : proj) : proj := Prj (jx p) (- jy p) (jz p).
(** macros/curve/weierstrass.rs:33-43 [to_extended]. *)
Definition to_extended (p : aff) : proj := if aff_is_identity p then proj_identity else Prj (ax p) (ay p) 1.
(** macros/curve/weierstrass.rs:57-66 [to_affine]. *)
Definition to_affine (p : proj) : aff :=
  match kinvert (jz p) with
  | Some zi => Aff (jx p * zi) (jy p * zi) false
  | None => aff_identity
  end.
(** weierstrass.rs:39-60 [double_affine_point]. *)
Definition double_affine_point (p : aff) : proj :=
  let x := ax p in let y := ay p in
  let t0 := ksq y in
  let z3 := kdbl (kdbl (kdbl t0)) in
  let x3 := b3 * z3 in
  let y3 := t0 + b3 in
  let z3 := y * z3 in
  let t1 := kdbl b3 in
  let t2 := t1 + b3 in
  let t0 := t0 - t2 in
  let y3 := t0 * y3 in
  let y3 := x3 + y3 in
  let t1 := x * y in
  let x3 := t0 * t1 in
  let x3 := kdbl x3 in
  Prj x3 y3 z3.
(** weierstrass.rs:6-35 [add_affine_point]. *)
Definition add_affine_point (lhs rhs : aff) : proj :=
  if aff_is_identity lhs then to_extended rhs
  else if aff_is_identity rhs then to_extended lhs
  else
  let x0 := ax lhs in let y0 := ay lhs in let x1 := ax rhs in let y1 := ay rhs in
  if keqb x0 x1 then if keqb y0 y1 then double_affine_point lhs else proj_identity
  else
  let s := y0 - y1 in
  let u := x0 - x1 in
  let uu := ksq u in
  let w := ksq s - uu * (x0 + x1) in
  let uuu := uu * u in
  Prj (u * w) (s * (x0 * uu - w) - y0 * uuu) uuu.
(** weierstrass.rs:63-97 [add_mixed_point]. *)
Definition add_mixed_point (lhs : aff) (rhs : proj) : proj :=
  if aff_is_identity lhs then rhs
  else if proj_is_identity rhs then to_extended lhs
  else
  let x1 := jx rhs in let y1 := jy rhs in let z1 := jz rhs in
  let x2 := ax lhs in let y2 := ay lhs in
  let s1 := y2 * z1 in
  let u1 := x2 * z1 in
  if keqb u1 x1 then if keqb s1 y1 then double_affine_point lhs else to_extended aff_identity
  else
  let u := s1 - y1 in
  let uu := ksq u in
  let v := u1 - x1 in
  let vv := ksq v in
  let vvv := vv * v in
  let r := vv * x1 in
  let a := uu * z1 - vvv - kdbl r in
  Prj (v * a) (u * (r - a) - vvv * y1) (vvv * z1).
(** weierstrass.rs:140-163 [double_projective_point]. *)
Definition double_projective_point (p : proj) : proj :=
  let x := jx p in let y := jy p in let z := jz p in
  let t0 := ksq y in
  let z3 := kdbl (kdbl (kdbl t0)) in
  let t1 := y * z in
  let t2 := ksq z in
  let t2 := t2 * b3 in
  let x3 := t2 * z3 in
  let y3 := t0 + t2 in
  let z3 := t1 * z3 in
  let t1 := kdbl t2 in
  let t2 := t1 + t2 in
  let t0 := t0 - t2 in
  let y3 := t0 * y3 in
  let y3 := x3 + y3 in
  let t1 := x * y in
  let x3 := t0 * t1 in
  let x3 := kdbl x3 in
  Prj x3 y3 z3.
(** weierstrass.rs:101-136 [add_projective_point]. *)
Definition add_projective_point (lhs rhs : proj) : proj :=
  if proj_is_identity lhs then rhs
  else if proj_is_identity rhs then lhs
  else
  let x0 := jx lhs in let y0 := jy lhs in let z0 := jz lhs in
  let x1 := jx rhs in let y1 := jy rhs in let z1 := jz rhs in
  let s1 := y0 * z1 in
  let s2 := y1 * z0 in
  let u1 := x0 * z1 in
  let u2 := x1 * z0 in
  if keqb u1 u2 then if keqb s1 s2 then double_projective_point lhs else proj_identity
  else
  let s := s1 - s2 in
  let u := u1 - u2 in
  let uu := ksq u in
  let v := z0 * z1 in
  let w := ksq s * v - uu * (u1 + u2) in
  let uuu := uu * u in
  Prj (u * w) (s * (u1 * uu - w) - s1 * uuu) (uuu * v).

(** The operators.  g1.rs:73-79, 93-99, 158-164, 178-184; curve.rs:118-124, 150-156, 182-188, 214-220. *)
Definition aff_add := add_affine_point.
Definition aff_sub (p q : aff) : proj := add_affine_point p (aff_neg q).
Definition proj_add := add_projective_point.
Definition proj_sub (p q : proj) : proj := add_projective_point p (proj_neg q).
Definition aff_add_proj (p : aff) (q : proj) : proj := add_mixed_point p q.
Definition aff_sub_proj (p : aff) (q : proj) : proj := add_mixed_point p (proj_neg q).
Definition proj_add_aff (p : proj) (q : aff) : proj := add_mixed_point q p.
Definition proj_sub_aff (p : proj) (q : aff) : proj := add_mixed_point (aff_neg q) p.
(** The by-reference forms.  curve.rs:16-62 (same type), 126-148 and 190-212 (mixed +), 222-244
    (projective - affine): they delegate to the by-value forms. *)
Definition aff_add_ref := aff_add.
Definition aff_sub_ref := aff_sub.
Definition proj_add_ref := proj_add.
Definition proj_sub_ref := proj_sub.
Definition aff_add_proj_ref := aff_add_proj.
Definition proj_add_aff_ref := proj_add_aff.
Definition proj_sub_aff_ref := proj_sub_aff.
(** curve.rs:158-180 [Sub<&extended> for &affine] and its two variants. *)
Definition aff_sub_proj_ref (p : aff) (q : proj) : proj := aff_add_proj p q.
(** curve.rs:246-268: [+=], [-=] with an affine operand; group.rs:167-171, 179-195: the others (the [+=] of group.rs:173-177, on a reference, calls itself and is not modelled). *)
Definition proj_add_assign_aff (p : proj) (q : aff) : proj := add_mixed_point q p.
Definition proj_sub_assign_aff (p : proj) (q : aff) : proj := add_mixed_point (aff_neg q) p.
Definition proj_add_assign := proj_add.
Definition proj_sub_assign := proj_sub.

(** weierstrass.rs:167-178 [scalar_point], on the signed digits [to_nafs] returns. *)
Definition scalar_step (point res : proj) (d : naf) : proj :=
  let res := double_projective_point res in
  match d with NPlus => proj_add res point | NMinus => proj_sub res point | NZero => res end.
Definition scalar_digits (point : proj) (ds : list naf) : proj :=
  fold_left (scalar_step point) ds proj_identity.
(** The scalar is a field element on limbs; [None] would be a panic of [to_nafs].
    g1.rs:101-115, 186-200 [Mul]. *)
Definition scalar_point (P : fparams) (point : proj) (scalar : l4) : option proj :=
  match fto_nafs P scalar with Some ds => Some (scalar_digits point ds) | None => None end.
Definition aff_mul (P : fparams) (point : aff) (scalar : l4) : option proj := scalar_point P (to_extended point) scalar.
(** g1.rs:202-212 [Sum]. *)
Definition proj_sum (l : list proj) : proj := fold_left proj_add l proj_identity.
(** g1.rs:149-155 [batch_normalize]; [None] = the failed [assert_eq!] on the lengths. *)
Definition batch_normalize (ps : list proj) (q : list aff) : option (list aff) :=
  if Nat.eqb (length ps) (length q) then Some (map to_affine ps) else None.
(** g1.rs:127-145, g2.rs:92-112 [mul_by_x]: the bits of BN_X above the lowest, least significant first. *)
Fixpoint mul_by_bits (fuel : nat) (x : Z) (tmp acc : proj) : proj :=
  match fuel with
  | O => acc
  | S f => if (x =? 0)%Z then acc else
           let tmp := double_projective_point tmp in
           let acc := if (x mod 2 =? 1)%Z then proj_add acc tmp else acc in
           mul_by_bits f (x / 2) tmp acc
  end.
Definition mul_by_x (bn_x : Z) (negative : bool) (p : proj) : proj :=
  let r := mul_by_bits 64 (bn_x / 2) p proj_identity in if negative then proj_neg r else r.
End Weier.
Arguments Aff {F}. Arguments ax {F}. Arguments ay {F}. Arguments ainf {F}.
Arguments Prj {F}. Arguments jx {F}. Arguments jy {F}. Arguments jz {F}.
