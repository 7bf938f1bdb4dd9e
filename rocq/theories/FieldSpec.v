(** Specification vocabulary of the field layer, independent of the algorithms of the
    model: which residue four Montgomery limbs stand for, and which inputs make
    [square] lose a carry. *)
From Coq Require Import ZArith List Bool.
From Verif Require Import LimbModel FieldModel.
Import ListNotations.
Local Open Scope Z_scope.

(** The two BN254 primes: scalar field (Fr) and base field (Fq). *)
Definition R_MOD : Z := 21888242871839275222246405745257275088548364400416034343698204186575808495617.
Definition Q_MOD : Z := 21888242871839275222246405745257275088696311157297823662689037894645226208583.

(** The integer of four little-endian 64-bit limbs, and the range of limbs. *)
Definition limb_value (a : l4) : Z := w0 a + 2 ^ 64 * w1 a + 2 ^ 128 * w2 a + 2 ^ 192 * w3 a.
Definition limb_ok (x : Z) : Prop := 0 <= x < 2 ^ 64.
Definition limbs_ok (a : l4) : Prop := limb_ok (w0 a) /\ limb_ok (w1 a) /\ limb_ok (w2 a) /\ limb_ok (w3 a).

(** [represents m a c]: the limbs [a] are the reduced Montgomery form of the residue
    [c] modulo [m]. *)
Definition represents (m : Z) (a : l4) (c : Z) : Prop :=
  limbs_ok a /\ 0 <= c < m /\ limb_value a = (c * 2 ^ 256) mod m.

(** A reduced element. *)
Definition reduced (m : Z) (a : l4) : Prop := limbs_ok a /\ limb_value a < m.

(** The inputs on which [square] loses a carry (normal.rs:139): with
    [S = a0 a1 + a0 a2 B + a0 a3 B^2 + a1 a3 B^3 + a2 a3 B^4], [B = 2^64], adding [a1 a2 B^2] to
    the five low limbs of [S] overflows them. *)
Definition cross_sum (a : l4) : Z :=
  w0 a * w1 a + 2 ^ 64 * (w0 a * w2 a) + 2 ^ 128 * (w0 a * w3 a)
  + 2 ^ 192 * (w1 a * w3 a) + 2 ^ 256 * (w2 a * w3 a).
Definition drops_carry (a : l4) : bool :=
  2 ^ 320 <=? cross_sum a mod 2 ^ 320 + 2 ^ 128 * (w1 a * w2 a).

(** Big-endian digit strings in base [b], as integers. *)
Definition be_value (b : Z) (ds : list Z) : Z := fold_left (fun acc d => b * acc + d) ds 0.
(** Little-endian bytes, as integers. *)
Definition le_value (ds : list Z) : Z := fold_right (fun d acc => d + 256 * acc) 0 ds.
Definition is_byte (x : Z) : Prop := 0 <= x < 256.

(** Signed binary digits. *)
Definition naf_val (d : naf) : Z := match d with NZero => 0 | NPlus => 1 | NMinus => -1 end.
(** No two adjacent non-zero digits. *)
Fixpoint non_adjacent (l : list naf) : Prop :=
  match l with
  | a :: ((b :: _) as r) => (a = NZero \/ b = NZero) /\ non_adjacent r
  | _ => True
  end.


(** No accumulator of a left-to-right square-and-multiply computation of [x^e] drops a
    carry when squared: the accumulators are the powers [x^(e >> j)], [j >= 1]. *)
Definition carry_free (m x e : Z) : Prop :=
  forall j a, 0 < j -> represents m a (x ^ (e / 2 ^ j) mod m) -> drops_carry a = false.

(** The two prime fields of the library, with their moduli. *)
Definition bn_field (P : fparams) (m : Z) : Prop := (P = fr /\ m = R_MOD) \/ (P = fq /\ m = Q_MOD).
