(** Specification vocabulary for the extension tower: polynomials over a coefficient ring as
    lists (lowest degree first), and congruence modulo a polynomial.  Nothing here mentions the
    model of the code. *)
From Coq Require Import List.
Import ListNotations.

Section Poly.
Context {T : Type} (zero : T) (add mul : T -> T -> T).
(** Coefficientwise equality, missing coefficients being zero. *)
Definition same_poly (p q : list T) : Prop := forall k, nth k p zero = nth k q zero.
Fixpoint poly_add (p q : list T) : list T :=
  match p, q with
  | [], _ => q
  | _, [] => p
  | x :: p, y :: q => add x y :: poly_add p q
  end.
Definition poly_scale (c : T) (p : list T) : list T := map (mul c) p.
(** (x + X p) q = x q + X (p q) *)
Fixpoint poly_mul (p q : list T) : list T :=
  match p with
  | [] => []
  | x :: p => poly_add (poly_scale x q) (zero :: poly_mul p q)
  end.
(** [p] and [r] differ by a multiple of [m]. *)
Definition congruent (m p r : list T) : Prop := exists q, same_poly p (poly_add (poly_mul q m) r).
(** x * x * ... * x, n times. *)
Fixpoint rpow (one x : T) (n : nat) : T := match n with O => one | S n => mul x (rpow one x n) end.
End Poly.
