(** What the crate [ff] requires of the constants of a prime field (documentation of [ff::PrimeField]),
    as residues modulo [m]. *)
From Coq Require Import ZArith List Bool.
From Verif Require Import LimbModel FieldModel FieldSpec FfModel.
Local Open Scope Z_scope.

(** [t * 2^S + 1 = m] with [t] odd. *)
Definition two_adicity (m s : Z) : Prop := 0 <= s /\ exists t, Z.odd t = true /\ m - 1 = t * 2 ^ s.
(** [NUM_BITS] bits are needed for the modulus, [CAPACITY] bits always fit. *)
Definition bit_sizes (m num capacity : Z) : Prop := 2 ^ (num - 1) <= m < 2 ^ num /\ capacity = num - 1.
(** The values of the constants: [2 * TWO_INV = 1]; [ROOT_OF_UNITY = GENERATOR^t], a primitive [2^S]-th root of
    unity; [ROOT_OF_UNITY * ROOT_OF_UNITY_INV = 1]; [DELTA = GENERATOR^(2^S)]. *)
Record good_consts (m : Z) (C : ff_consts) (two_inv gen root root_inv delta : Z) : Prop := {
  g_reps : represents m (c_two_inv C) two_inv /\ represents m (c_generator C) gen /\ represents m (c_root C) root /\
    represents m (c_root_inv C) root_inv /\ represents m (c_delta C) delta;
  g_bits : bit_sizes m (c_num_bits C) (c_capacity C);
  g_adic : two_adicity m (c_s C);
  g_two : (2 * two_inv) mod m = 1;
  g_gen : gen ^ ((m - 1) / 2) mod m = m - 1;
  g_root : root = gen ^ ((m - 1) / 2 ^ c_s C) mod m;
  g_prim : root ^ (2 ^ c_s C) mod m = 1 /\ (0 < c_s C -> root ^ (2 ^ (c_s C - 1)) mod m = m - 1);
  g_inv : (root * root_inv) mod m = 1;
  g_delta : delta = gen ^ (2 ^ c_s C) mod m
}.
(** Little-endian bits as an integer. *)
Definition le_bits_value (l : list Z) : Z := fold_right (fun d acc => d + 2 * acc) 0 l.
Definition is_bit (b : Z) : Prop := b = 0 \/ b = 1.
