(** groth16/src/msm.rs: multi-scalar multiplication with buckets. *)
From Coq Require Import ZArith List Bool.
From Verif Require Import LimbModel FieldModel FieldSpec Algebra WeierModel.
Import ListNotations.
Local Open Scope Z_scope.

(** msm.rs:7-14: the window width.  [usize::BITS - leading_zeros] is the bit length. *)
Definition msm_window (len : Z) : Z :=
  if len <? 4 then 1
  else if len <? 32 then 3
  else (Z.log2 len + 1) * 69 / 100 + 2.

(** msm.rs:75-91 [get_at]: the zipped copy into [v] takes at most 8 bytes, the rest of [v] stays 0. *)
Definition get_at (segment c : Z) (bytes : list Z) : Z :=
  let skip_bits := segment * c in
  let skip_bytes := skip_bits / 8 in
  if 32 <=? skip_bytes then 0
  else
    let v := firstn 8 (skipn (Z.to_nat skip_bytes) bytes) in
    let tmp := le_value v in
    Z.shiftr tmp (skip_bits - skip_bytes * 8) mod 2 ^ c.

Section Msm.
Variables (F : Fld) (b3 : F) (P : fparams).
(** msm.rs:50-55 [Bucket]. *)
Inductive bucket := BNone | BAffine (a : aff F) | BProjective (p : proj F).
(** msm.rs:58-64 [Bucket::add_assign]. *)
Definition bucket_add_assign (self : bucket) (other : aff F) : bucket :=
  match self with
  | BNone => BAffine other
  | BAffine a => BProjective (aff_add F b3 a other)
  | BProjective a => BProjective (proj_add_aff F b3 a other)
  end.
(** msm.rs:66-72 [Bucket::add]. *)
Definition bucket_add (self : bucket) (other : proj F) : proj F :=
  match self with
  | BNone => other
  | BAffine a => proj_add_aff F b3 other a
  | BProjective a => proj_add F b3 other a
  end.
(** [bucket[i].add_assign(base)]; [None] is an index out of bounds. *)
Fixpoint bucket_update (l : list bucket) (i : nat) (base : aff F) : option (list bucket) :=
  match l, i with
  | [], _ => None
  | b :: l, O => Some (bucket_add_assign b base :: l)
  | b :: l, S i => match bucket_update l i base with Some l => Some (b :: l) | None => None end
  end.
(** msm.rs:25-30: the buckets of segment [i]. *)
Fixpoint fill (i c : Z) (items : list (l4 * aff F)) (bk : list bucket) : option (list bucket) :=
  match items with
  | [] => Some bk
  | (coeff, base) :: items =>
      let seg := get_at i c (to_bytes P coeff) in
      if seg =? 0 then fill i c items bk
      else match bucket_update bk (Z.to_nat (seg - 1)) base with
           | Some bk => fill i c items bk
           | None => None
           end
  end.
(** msm.rs:35-40: summation by parts over the buckets, last first. *)
Definition by_parts_step (s : proj F * proj F) (b : bucket) : proj F * proj F :=
  let sum := bucket_add b (fst s) in (sum, proj_add F b3 (snd s) sum).
Definition by_parts (bk : list bucket) : proj F :=
  snd (fold_left by_parts_step (rev bk) (proj_identity F, proj_identity F)).
(** msm.rs:41 [(0..c * i).for_each(|_| acc = acc.double())]. *)
Fixpoint doubles (n : nat) (acc : proj F) : proj F :=
  match n with O => acc | S n => doubles n (double_projective_point F b3 acc) end.
Definition segment (c : Z) (items : list (l4 * aff F)) (i : Z) : option (proj F) :=
  match fill i c items (repeat BNone (Z.to_nat (2 ^ c - 1))) with
  | Some bk => Some (doubles (Z.to_nat (c * i)) (by_parts bk))
  | None => None
  end.
(** msm.rs:45-47 and the collection of the segments [256/c], ..., 0 (the parallel map keeps the order). *)
Fixpoint msm_segments (c : Z) (items : list (l4 * aff F)) (acc : proj F) (is : list nat) : option (proj F) :=
  match is with
  | [] => Some acc
  | i :: is => match segment c items (Z.of_nat i) with
               | Some s => msm_segments c items (proj_add F b3 acc s) is
               | None => None
               end
  end.
(** msm.rs:6-48 [msm_curve_addition]. *)
Definition msm (bases : list (aff F)) (coeffs : list l4) : option (proj F) :=
  let c := msm_window (Z.of_nat (length bases)) in
  msm_segments c (combine coeffs bases) (proj_identity F) (rev (seq 0 (Z.to_nat (256 / c + 1)))).
End Msm.
