(** The textbook twisted Edwards curve [- x^2 + y^2 = 1 + d x^2 y^2] and its addition law. *)
From Coq Require Import ZArith List Bool.
From Verif Require Import Algebra EdwardsModel.
Local Open Scope fld_scope.

Section Spec.
Context {K : Fld}.
Variable d : K.
Definition ed_point : Type := (K * K)%type.
Definition ed_on (P : ed_point) : Prop := let (x, y) := P in y * y - x * x = 1 + d * (x * x) * (y * y).
Definition ed_zero : ed_point := (0, 1).
Definition ed_neg (P : ed_point) : ed_point := let (x, y) := P in (- x, y).
Definition ed_add (P Q : ed_point) : ed_point :=
  let (x1, y1) := P in let (x2, y2) := Q in
  ((x1 * y2 + y1 * x2) / (1 + d * x1 * x2 * y1 * y2), (y1 * y2 + x1 * x2) / (1 - d * x1 * x2 * y1 * y2)).
Fixpoint ed_mul (n : nat) (P : ed_point) : ed_point := match n with O => ed_zero | S n => ed_add P (ed_mul n P) end.
(** The curves the library is meant for: odd characteristic, [-1] a square, [d] not a square. *)
Record ed_complete : Prop := {
  ec_two : (1 + 1 : K) <> 0;
  ec_i : exists i : K, i * i = - (1);
  ec_d : forall s : K, s * s <> d }.
(** What a value of the two point types stands for: [x], [y], with [t = x y] scaled by a non-zero [z]. *)
Definition ed_aff (p : eaff K) : ed_point := (eax p, eay p).
Definition ed_ext (p : eext K) (P : ed_point) : Prop :=
  let (x, y) := P in eez p <> 0 /\ eex p = x * eez p /\ eey p = y * eez p /\ eet p = x * y * eez p.
End Spec.
