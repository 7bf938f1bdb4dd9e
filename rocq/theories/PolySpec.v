(** Values of polynomials given by their coefficients, constant term first. *)
From Coq Require Import List.
From Verif Require Import Algebra.
Import ListNotations.
Local Open Scope fld_scope.

Section Spec.
Variable F : Fld.
(** [f 0 + ... + f (n-1)]. *)
Fixpoint sumn (f : nat -> F) (n : nat) : F := match n with O => 0 | S n => sumn f n + f n end.
(** The value at [x] of the polynomial with coefficients [p]. *)
Definition peval (p : list F) (x : F) : F := sumn (fun i => nth i p 0 * kpow x i) (length p).
(** Two coefficient lists stand for the same polynomial: equal up to trailing zeros. *)
Definition same_poly (p q : list F) : Prop := forall i, nth i p 0 = nth i q 0.
(** No trailing zero. *)
Definition trimmed (p : list F) : Prop := p = [] \/ last p 0 <> 0.
End Spec.
Arguments sumn {F}. Arguments peval {F}. Arguments same_poly {F}. Arguments trimmed {F}.
