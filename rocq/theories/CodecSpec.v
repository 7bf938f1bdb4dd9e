(** What an encoding of values as byte strings should do. *)
From Coq Require Import ZArith List Bool.
From Verif Require Import LimbModel FieldModel FieldSpec CodecModel.
Import ListNotations.
Local Open Scope Z_scope.

(** On the values of [dom]: the encoding is bytes; whatever follows it, decoding returns the value and leaves what
    follows; and decoding succeeds on nothing but encodings of values of [dom]. *)
Record exact_codec {A} (c : codec A) (dom : A -> Prop) : Prop := {
  x_bytes : forall a, dom a -> Forall is_byte (enc c a);
  x_round : forall a rest, dom a -> dec c (enc c a ++ rest) = Some (a, rest);
  x_only : forall bs a rest, Forall is_byte bs -> dec c bs = Some (a, rest) -> dom a /\ bs = enc c a ++ rest
}.
(** The values of each type: four machine words for a field element, reduced or not. *)
Definition any {A} (a : A) : Prop := True.
Definition both {A B} (da : A -> Prop) (db : B -> Prop) (v : A * B) : Prop := da (fst v) /\ db (snd v).
Definition either {A B} (da : A -> Prop) (db : B -> Prop) (v : A + B) : Prop := match v with inl a => da a | inr b => db b end.
Definition vec_of {A} (da : A -> Prop) (l : list A) : Prop := Z.of_nat (length l) < 2 ^ 32 /\ Forall da l.
Definition u64_val (v : Z) : Prop := 0 <= v < 2 ^ 64.
Definition affine_val {A} (da : A -> Prop) : A * (A * bool) -> Prop := both da (both da any).
Definition projective_val {A} (da : A -> Prop) : A * (A * A) -> Prop := both da (both da da).
Definition wire_val : Z + Z -> Prop := either u64_val u64_val.
Definition dense_val : list l4 -> Prop := vec_of limbs_ok.
Definition row_val := vec_of (both wire_val limbs_ok).
Definition matrix_val := vec_of row_val.
Definition shape_val := both u64_val (both u64_val (both u64_val (both matrix_val (both matrix_val matrix_val)))).
Definition point_val := affine_val limbs_ok.
Definition instance_val := both point_val dense_val.
Definition relaxed_instance_val := both point_val (both point_val (both limbs_ok dense_val)).
Definition relaxed_witness_val := both dense_val dense_val.
Definition proof_val := both u64_val (both dense_val (both dense_val (both dense_val (both dense_val
  (both (both (both instance_val dense_val) (both (both relaxed_instance_val relaxed_witness_val) (both relaxed_instance_val relaxed_witness_val))) (@any unit)))))).
Definition params_val := both shape_val (both shape_val (both (vec_of point_val) (both (vec_of point_val) (@any unit)))).
