(** bn254/src/ff_compat.rs: the two fields as instances of the traits of the crate [ff].
    [Choice] is [bool], [CtOption] is [option] (its value cannot be read when the choice is 0).
    [sqrt_ratio] calls a function of [ff], which is not in the repository, and is not modelled. *)
From Coq Require Import ZArith List Bool.
From Verif Require Import LimbModel FieldModel.
Import ListNotations.
Local Open Scope Z_scope.

Section Ff.
Variable P : fparams.
(** ff_compat.rs:30-39, 197-206 [conditional_select]: the second for [Choice] 1. *)
Definition word_select (a b : Z) (choice : bool) : Z := if choice then b else a.
Definition conditional_select (a b : l4) (choice : bool) : l4 :=
  L4 (word_select (w0 a) (w0 b) choice) (word_select (w1 a) (w1 b) choice) (word_select (w2 a) (w2 b) choice) (word_select (w3 a) (w3 b) choice).
(** ff_compat.rs:41-48, 208-215 [ct_eq]. *)
Definition ct_eq (a b : l4) : bool := (w0 a =? w0 b) && (w1 a =? w1 b) && (w2 a =? w2 b) && (w3 a =? w3 b).
(** ff_compat.rs:66-69, 233-236 [invert]; [unwrap_or_default] gives [Default] of field/ring.rs:15-19. *)
Definition ff_invert (a : l4) : option l4 :=
  let tmp := match finvert P a with Some i => i | None => fdefault P end in
  if negb (ct_eq tmp fzero) then Some tmp else None.
(** ff_compat.rs:79-90, 246-257 [from_repr]. *)
Definition ff_from_repr (repr : list Z) : option l4 :=
  let tmp := L4 (slice8 repr 0) (slice8 repr 8) (slice8 repr 16) (slice8 repr 24) in
  let tmp := to_mont_form tmp (fR2 P) (fmod P) (finv P) in
  Some tmp.
(** ff_compat.rs:92-102, 259-269 [to_repr]. *)
Definition ff_to_repr (a : l4) : list Z :=
  let tmp := montgomery_reduce P a in
  le_bytes (w0 tmp) ++ le_bytes (w1 tmp) ++ le_bytes (w2 tmp) ++ le_bytes (w3 tmp).
(** ff_compat.rs:104-106, 271-273 [is_odd]. *)
Definition ff_is_odd (a : l4) : bool := Z.land (nth 0 (ff_to_repr a) 0) 1 =? 1.
(** [ff::FieldBits::new] of four words: the bits of each word from the lowest. *)
Definition field_bits (l : l4) : list Z :=
  flat_map (fun w => map (fun i => (w / 2 ^ Z.of_nat i) mod 2) (seq 0 64)) (limbs l).
(** ff_compat.rs:123-134, 290-301 [to_le_bits]. *)
Definition ff_to_le_bits (a : l4) : list Z :=
  let bytes := ff_to_repr a in
  field_bits (L4 (slice8 bytes 0) (slice8 bytes 8) (slice8 bytes 16) (slice8 bytes 24)).
(** ff_compat.rs:136-138, 303-305 [char_le_bits]. *)
Definition ff_char_le_bits : list Z := field_bits (fmod P).
End Ff.

(** The associated constants of [ff::PrimeField], as the limbs stored. *)
Record ff_consts := FfC { c_num_bits : Z; c_capacity : Z; c_two_inv : l4; c_generator : l4; c_s : Z; c_root : l4; c_root_inv : l4; c_delta : l4 }.
(** ff_compat.rs:9-28, 108-117; fr.rs:17-20, 53-65. *)
Definition fr_ff : ff_consts := {|
  c_num_bits := 254; c_capacity := 253;
  c_two_inv := fto_mont_form fr (L4 0xa1f0fac9f8000001 0x9419f4243cdcb848 0xdc2822db40c0ac2e 0x183227397098d014);
  c_generator := fr_generator;
  c_s := fr_S;
  c_root := fr_root_of_unity;
  c_root_inv := fto_mont_form fr (L4 0x0ed3e50a414e6dba 0xb22625f59115aba7 0x1bbe587180f34361 0x048127174daabc26);
  c_delta := fto_mont_form fr (L4 0x870e56bbe533e9a2 0x5b5f898e5e963f25 0x64ec26aad4c86e71 0x09226b6e22c6f0ca) |}.
(** ff_compat.rs:171-195, 275-284; fq.rs:17 [GENERATOR] ([Fq(GENERATOR)]: the limbs are not converted). *)
Definition fq_ff : ff_consts := {|
  c_num_bits := 254; c_capacity := 253;
  c_two_inv := fto_mont_form fq (L4 0x9e10460b6c3e7ea4 0xcbc0b548b438e546 0xdc2822db40c0ac2e 0x183227397098d014);
  c_generator := L4 3 0 0 0;
  c_s := 0;
  c_root := fto_mont_form fq (L4 0x3c208c16d87cfd46 0x97816a916871ca8d 0xb85045b68181585d 0x30644e72e131a029);
  c_root_inv := fto_mont_form fq (L4 0x3c208c16d87cfd46 0x97816a916871ca8d 0xb85045b68181585d 0x30644e72e131a029);
  c_delta := fto_mont_form fq (L4 9 0 0 0) |}.
