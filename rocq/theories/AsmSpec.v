(** Specification used by the theorems on the assembly backend. *)
From Coq Require Import ZArith List Bool.
From Verif Require Import LimbModel AsmModel.
Import ListNotations.
Local Open Scope Z_scope.

(** Every carry chain of the product and of the reduction ends in an [adc reg, 0]; nothing
    reads the carry that this instruction produces.  [no_lost_carry m code s]: in the run of
    [code] from [s] no [adc reg, 0] produces one. *)
Fixpoint no_lost_carry (m : mem) (code : list instr) (s : cpu) : bool :=
  match code with
  | [] => true
  | i :: rest =>
      (match i with ADC _ (Imm 0) => negb (cf (step m i s)) | _ => true end)
      && no_lost_carry m rest (step m i s)
  end.

(** The modulus of the Jubjub scalar field and its Montgomery constant
    (zkstd/tests/jubjub.rs:410-417, [JUBJUB_MODULUS] and [JUBJUB_INV]). *)
Definition JUBJUB_MODULUS : l4 :=
  L4 0xd0970e5ed6f72cb7 0xa6682093ccc81082 0x06673b0101343b00 0x0e7db4ea6533afa9.
Definition JUBJUB_INV : Z := 0x1ba3a358ef788ef9.
