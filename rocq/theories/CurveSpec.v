(** Specification: the points of y^2 = x^3 + b and the chord-and-tangent law, over any field. *)
From Coq Require Import ZArith List Bool.
From Verif Require Import Algebra.
Import ListNotations.
Local Open Scope fld_scope.

Section Spec.
Variable K : Fld.
Inductive point := Inf | Pt (x y : K).
Definition on_curve (b : K) (P : point) : Prop :=
  match P with Inf => True | Pt x y => y * y = x * x * x + b end.
Definition pt_neg (P : point) : point := match P with Inf => Inf | Pt x y => Pt x (- y) end.
(** The sum: the reflected third intersection of the chord, or of the tangent when the points
    coincide; the point at infinity when the line is vertical. *)
Definition pt_add (P Q : point) : point :=
  match P, Q with
  | Inf, _ => Q
  | _, Inf => P
  | Pt x1 y1, Pt x2 y2 =>
      if keqb x1 x2 && keqb y1 (- y2) then Inf
      else let l := if keqb x1 x2 then (x1 * x1 + x1 * x1 + x1 * x1) / (y1 + y1) else (y1 - y2) / (x1 - x2) in
           let x3 := l * l - x1 - x2 in Pt x3 (l * (x1 - x3) - y1)
  end.
(** Multiples. *)
Fixpoint pt_mul (n : nat) (P : point) : point := match n with O => Inf | S n => pt_add P (pt_mul n P) end.
Definition pt_zmul (z : Z) (P : point) : point :=
  if (z <? 0)%Z then pt_neg (pt_mul (Z.to_nat (- z)) P) else pt_mul (Z.to_nat z) P.
Definition pt_sum (l : list point) : point := fold_right pt_add Inf l.
End Spec.
Arguments Inf {K}. Arguments Pt {K}. Arguments on_curve {K}. Arguments pt_neg {K}. Arguments pt_add {K}.
Arguments pt_mul {K}. Arguments pt_zmul {K}. Arguments pt_sum {K}.
