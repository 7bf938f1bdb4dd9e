(** What multi-limb numbers mean, independently of the gadgets. *)
From Coq Require Import ZArith List.
From Verif Require Import Algebra R1csModel R1csSpec NovaModel BigNatModel.
Import ListNotations.
Local Open Scope fld_scope.

Section Spec.
Variable F : pfield.
(** The polynomial with coefficients [cs], constant term first, at [X]; the number with digits [ds] in base [b]. *)
Fixpoint poly_value (cs : list F) (X : F) : F := match cs with [] => 0 | c :: cs => c + X * poly_value cs X end.
Fixpoint base_value (b : Z) (ds : list Z) : Z := match ds with [] => 0 | d :: ds => d + b * base_value b ds end.
(** In the prover's assignment the four limbs of [a] are 64-bit integers and make up [n]. *)
Definition is_number (cs : r1cs F) (a : bignat F) (n : Z) : Prop :=
  Forall (row_ok cs) (bn_limbs a) /\ length (bn_limbs a) = 4%nat /\
  Forall (fun r => 0 <= pf_val F (lc (own cs) r) < 2 ^ 64)%Z (bn_limbs a) /\
  base_value (2 ^ 64) (map (fun r => pf_val F (lc (own cs) r)) (bn_limbs a)) = n /\
  bn_min_bits a = 0%nat /\ bn_max_word a = (2 ^ 64 - 1)%Z /\ bn_width a = 64%nat /\ bn_n a = 4%nat.
(** The same for a sum of two numbers: four limbs of up to 65 bits, the number itself below [2^256]. *)
Definition is_sum (cs : r1cs F) (a : bignat F) (n : Z) : Prop :=
  Forall (row_ok cs) (bn_limbs a) /\ length (bn_limbs a) = 4%nat /\
  Forall (fun r => 0 <= pf_val F (lc (own cs) r) <= bn_max_word a)%Z (bn_limbs a) /\
  base_value (2 ^ 64) (map (fun r => pf_val F (lc (own cs) r)) (bn_limbs a)) = n /\ (n < 2 ^ 256)%Z /\
  (bn_max_word a = 2 ^ 64 - 1 \/ bn_max_word a = 2 ^ 65 - 2)%Z /\ bn_width a = 64%nat.
End Spec.
Arguments is_number {F}. Arguments is_sum {F}. Arguments poly_value {F}.
