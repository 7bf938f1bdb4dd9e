(** Vocabulary for the six-limb layer: the integer of six limbs, the residue they stand for in
    Montgomery form, the moduli the functions are meant for, and the inputs on which [square] loses carries. *)
From Coq Require Import ZArith List Bool.
From Verif Require Import LimbModel FieldSpec Limb6Model.
Import ListNotations.
Local Open Scope Z_scope.

Definition limb_value6 (a : limb6) : Z :=
  u0 a + 2 ^ 64 * u1 a + 2 ^ 128 * u2 a + 2 ^ 192 * u3 a + 2 ^ 256 * u4 a + 2 ^ 320 * u5 a.
Definition limbs_ok6 (a : limb6) : Prop :=
  limb_ok (u0 a) /\ limb_ok (u1 a) /\ limb_ok (u2 a) /\ limb_ok (u3 a) /\ limb_ok (u4 a) /\ limb_ok (u5 a).
Definition limb_value12 (a : limb12) : Z :=
  limb_value6 (M6 (t0 a) (t1 a) (t2 a) (t3 a) (t4 a) (t5 a)) + 2 ^ 384 * limb_value6 (M6 (t6 a) (t7 a) (t8 a) (t9 a) (t10 a) (t11 a)).
Definition limbs_ok12 (a : limb12) : Prop :=
  limbs_ok6 (M6 (t0 a) (t1 a) (t2 a) (t3 a) (t4 a) (t5 a)) /\ limbs_ok6 (M6 (t6 a) (t7 a) (t8 a) (t9 a) (t10 a) (t11 a)).

(** A modulus of at most 383 bits, in limbs, and minus the inverse of its lowest limb modulo 2^64. *)
Definition modulus6 (p : limb6) (inv : Z) : Prop :=
  limbs_ok6 p /\ 1 < limb_value6 p /\ 2 * limb_value6 p < 2 ^ 384 /\ (u0 p * inv + 1) mod 2 ^ 64 = 0.

Definition reduced6 (m : Z) (a : limb6) : Prop := limbs_ok6 a /\ limb_value6 a < m.
(** The limbs are the reduced Montgomery form of the residue [c]. *)
Definition represents6 (m : Z) (a : limb6) (c : Z) : Prop :=
  limbs_ok6 a /\ 0 <= c < m /\ limb_value6 a = (c * 2 ^ 384) mod m.

(** [square] loses carries at normal.rs:228 ([l9.wrapping_add(c)]) and 234 ([l7.wrapping_add(c)]).
    With [S] the products of lines 197-214 and [T] those of 216-225, both from the second limb on: the first
    loss happens when adding [T] overflows the nine low limbs of [S], the second when adding [a2 a3] overflows
    the seven low limbs of [S + T]. *)
Definition cross6_s (a : limb6) : Z :=
  u0 a * u1 a + 2 ^ 64 * (u0 a * u2 a) + 2 ^ 128 * (u0 a * u3 a) + 2 ^ 192 * (u0 a * u4 a) + 2 ^ 256 * (u0 a * u5 a)
  + 2 ^ 320 * (u1 a * u5 a) + 2 ^ 384 * (u2 a * u5 a) + 2 ^ 448 * (u3 a * u5 a) + 2 ^ 512 * (u4 a * u5 a).
Definition cross6_t (a : limb6) : Z :=
  2 ^ 128 * (u1 a * u2 a) + 2 ^ 192 * (u1 a * u3 a) + 2 ^ 256 * (u1 a * u4 a) + 2 ^ 320 * (u2 a * u4 a) + 2 ^ 384 * (u3 a * u4 a).
Definition drops_high (a : limb6) : bool := 2 ^ 576 <=? cross6_s a mod 2 ^ 576 + cross6_t a.
Definition drops_low (a : limb6) : bool := 2 ^ 448 <=? (cross6_s a + cross6_t a) mod 2 ^ 448 + 2 ^ 256 * (u2 a * u3 a).

(** No accumulator [x^(e >> j)], [j >= 1], of the left-to-right computation of [x^e] loses a carry when squared. *)
Definition carry_free6 (m x e : Z) : Prop :=
  forall j a, 0 < j -> represents6 m a (x ^ (e / 2 ^ j) mod m) -> drops_high a = false /\ drops_low a = false.
