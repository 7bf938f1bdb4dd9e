(** The textbook Miller function of the optimal ate pairing, in affine coordinates over one field. *)
From Coq Require Import ZArith List Bool.
From Verif Require Import Algebra.
Import ListNotations.
Local Open Scope fld_scope.

Section Spec.
Variable K : Fld.
Definition pt : Type := (K * K)%type.
(** Tangent slope of y^2 = x^3 + b at (x, y), undefined when y = 0 (or 2 = 0). *)
Definition tangent (t : pt) : option K :=
  let '(x, y) := t in if keqb (y + y) k0 then None else Some ((x * x + x * x + x * x) / (y + y)).
(** Slope of the chord, undefined for a vertical one. *)
Definition chord (t q : pt) : option K :=
  let '(x1, y1) := t in let '(x2, y2) := q in
  if keqb (x2 - x1) k0 then None else Some ((y2 - y1) / (x2 - x1)).
(** Third intersection, reflected. *)
Definition third (l : K) (t q : pt) : pt :=
  let x3 := l * l - fst t - fst q in (x3, l * (fst t - x3) - snd t).
(** Value at [p] of the line with slope [l] through [t]. *)
Definition line_at (l : K) (t p : pt) : K := (snd p - snd t) - l * (fst p - fst t).
Definition pneg (q : pt) : pt := (fst q, - snd q).

(** One multiplication by a line: returns the accumulated value and the sum [t + q] (or [2 t]). *)
Definition dbl_step (p : pt) (s : K * pt) : option (K * pt) :=
  let '(f, t) := s in match tangent t with None => None | Some l => Some (f * f * line_at l t p, third l t t) end.
Definition add_step (p q : pt) (s : K * pt) : option (K * pt) :=
  let '(f, t) := s in match chord t q with None => None | Some l => Some (f * line_at l t p, third l t q) end.
(** Miller's algorithm over signed binary digits, most significant first, the leading 1 removed. *)
Fixpoint miller (ds : list Z) (p q : pt) (s : K * pt) : option (K * pt) :=
  match ds with
  | [] => Some s
  | d :: r =>
      match dbl_step p s with
      | None => None
      | Some s =>
          match (if Z.eqb d 1 then add_step p q s else if Z.eqb d (-1) then add_step p (pneg q) s else Some s) with
          | None => None
          | Some s => miller r p q s
          end
      end
  end.
(** f_{n,Q}(P) * l_{nQ, pi(Q)}(P) * l_{nQ + pi(Q), -pi^2(Q)}(P), with [frob] = pi on coordinates. *)
Definition optimal_ate (frob : K -> K) (ds : list Z) (p q : pt) : option K :=
  match miller ds p q (k1, q) with
  | None => None
  | Some s =>
      match add_step p (frob (fst q), frob (snd q)) s with
      | None => None
      | Some s =>
          match add_step p (pneg (frob (frob (fst q)), frob (frob (snd q)))) s with
          | None => None
          | Some s => Some (fst s)
          end
      end
  end.
End Spec.
(** Value of signed digits, most significant first. *)
Definition signed_value (ds : list Z) : Z := fold_left (fun acc d => 2 * acc + d)%Z ds 0%Z.
