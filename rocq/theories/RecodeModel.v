(** zkstd/src/macros/field.rs:126-193: the integer helpers of [FftField] for signed windows ([divn], [reduce],
    [is_even], [mod_2_pow_k] are in FieldModel.v). *)
From Coq Require Import ZArith Bool.
From Verif Require Import LimbModel FieldModel.
Local Open Scope Z_scope.

(** [v as i8] for a [u8]. *)
Definition as_i8 (v : Z) : Z := if v <? 128 then v else v - 256.
(** field.rs:183-192 [mods_2_pow_k]; [None] is a panic: the assertion, or an overflowing subtraction or shift as a
    checked build reports it ([w - 1] at zero, [1i8 << (w - 1)] from 9 on, [1u8 << w] from 8 on, [modulus - ..]). *)
Definition mods_2_pow_k (a : l4) (w : Z) : option Z :=
  if negb (w <? 32) then None
  else
    let modulus := as_i8 (mod_2_pow_k a w) in
    if w =? 0 then None
    else if 8 <=? w - 1 then None
    else
      let two_pow_w_minus_one := as_i8 (2 ^ (w - 1)) in
      if modulus >=? two_pow_w_minus_one then
        if 8 <=? w then None
        else
          let d := modulus - as_i8 (2 ^ w) in
          if (-128 <=? d) && (d <=? 127) then Some d else None
      else Some modulus.
