(** Specification vocabulary of property C68: what a user of [fft_field_operation!] has to supply. *)
From Coq Require Import ZArith.
From Verif Require Import LimbModel FieldModel FieldSpec.
Local Open Scope Z_scope.

(** The limb constants handed to the macro belong to the modulus [m]: [MODULUS] is [m]; [INV] is [-1/m] modulo [2^64]; [R],
    [R2], [R3] are [2^256], [2^512], [2^768] modulo [m]. *)
Record macro_parameters (P : fparams) (m : Z) : Prop := {
  mp_modulus : limbs_ok (fmod P) /\ limb_value (fmod P) = m;
  mp_inv : (m * finv P + 1) mod 2 ^ 64 = 0;
  mp_r : limbs_ok (fR P) /\ limb_value (fR P) = 2 ^ 256 mod m;
  mp_r2 : limbs_ok (fR2 P) /\ limb_value (fR2 P) = 2 ^ 512 mod m;
  mp_r3 : limbs_ok (fR3 P) /\ limb_value (fR3 P) = 2 ^ 768 mod m }.

(** BLS12-381's scalar field, the base field of Jubjub. *)
Definition BLS_MOD : Z := 0x73eda753299d7d483339d80809a1d80553bda402fffe5bfeffffffff00000001.
