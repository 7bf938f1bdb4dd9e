(** Byte encodings: the SCALE codec derived ([#[derive(Encode, Decode)]]) for the field elements, points, constraint
    systems, proofs and parameters, and the raw encodings of points.
    The crate parity-scale-codec 2.0 is not in the repository; its rules for the types used are modelled from its
    documentation: fixed-width integers are little-endian, a [bool] is the byte 0 or 1, arrays, tuples and structs are
    the concatenation of their parts, an enum is its variant's index in one byte and the variant's fields, a vector is
    its length as a compact integer and its elements; compact integers are described at [compact_enc].
    Limits on memory while decoding are not modelled. *)
From Coq Require Import ZArith List Bool.
From Verif Require Import LimbModel FieldModel.
Import ListNotations.
Local Open Scope Z_scope.

(** [Encode::encode] and [Decode::decode] (the value and what is left of the input; [None] is an error). *)
Record codec (A : Type) := Codec { enc : A -> list Z; dec : list Z -> option (A * list Z) }.
Arguments Codec {A}. Arguments enc {A}. Arguments dec {A}.

(** [n] little-endian bytes. *)
Definition le_enc (n : nat) (v : Z) : list Z := map (fun i => (v / 256 ^ Z.of_nat i) mod 256) (seq 0 n).
Definition take (n : nat) (bs : list Z) : option (list Z * list Z) := if (n <=? length bs)%nat then Some (firstn n bs, skipn n bs) else None.
Definition le_dec (n : nat) (bs : list Z) : option (Z * list Z) :=
  match take n bs with Some (l, rest) => Some (le_word l, rest) | None => None end.
(** [u64]. *)
Definition c_u64 : codec Z := Codec (le_enc 8) (le_dec 8).
(** [bool]. *)
Definition c_bool : codec bool := Codec (fun b : bool => [if b then 1 else 0])
  (fun bs => match bs with b :: rest => if b =? 0 then Some (false, rest) else if b =? 1 then Some (true, rest) else None | [] => None end).
(** [PhantomData] and unit structs. *)
Definition c_unit : codec unit := Codec (fun _ : unit => []) (fun bs => Some (tt, bs)).
(** Tuples, fields of a struct. *)
Definition c_pair {A B} (ca : codec A) (cb : codec B) : codec (A * B) := Codec (fun '(a, b) => enc ca a ++ enc cb b)
  (fun bs => match dec ca bs with Some (a, r) => match dec cb r with Some (b, r') => Some ((a, b), r') | None => None end | None => None end).
(** An enum with two variants. *)
Definition c_sum {A B} (ca : codec A) (cb : codec B) : codec (A + B) := Codec
  (fun v => match v with inl a => 0 :: enc ca a | inr b => 1 :: enc cb b end)
  (fun bs => match bs with
    | t :: r => if t =? 0 then match dec ca r with Some (a, r') => Some (inl a, r') | None => None end
                else if t =? 1 then match dec cb r with Some (b, r') => Some (inr b, r') | None => None end else None
    | [] => None end).
(** A struct in terms of the tuple of its fields. *)
Definition c_iso {A B} (f : A -> B) (g : B -> A) (c : codec A) : codec B :=
  Codec (fun b => enc c (g b)) (fun bs => match dec c bs with Some (a, r) => Some (f a, r) | None => None end).

(** [Compact<u64>], [Compact<u32>]: the two low bits of the first byte tell the mode; the value in the other bits of
    one, two or four bytes, or after the first byte in the number of bytes given there. *)
Definition bytes_needed (v : Z) : nat :=
  if v <? 2 ^ 32 then 4 else if v <? 2 ^ 40 then 5 else if v <? 2 ^ 48 then 6 else if v <? 2 ^ 56 then 7 else 8.
Definition compact_enc (v : Z) : list Z :=
  if v <? 2 ^ 6 then [4 * v]
  else if v <? 2 ^ 14 then le_enc 2 (4 * v + 1)
  else if v <? 2 ^ 30 then le_enc 4 (4 * v + 2)
  else (4 * (Z.of_nat (bytes_needed v) - 4) + 3) :: le_enc (bytes_needed v) v.
(** Decoding refuses what the encoder would have written in another mode; [maxb] is 4 for [u32], 8 for [u64]. *)
Definition compact_dec (maxb : Z) (bs : list Z) : option (Z * list Z) :=
  match bs with
  | [] => None
  | prefix :: r =>
      if prefix mod 4 =? 0 then Some (prefix / 4, r)
      else if prefix mod 4 =? 1 then
        match le_dec 2 bs with Some (x, r') => if 2 ^ 6 <=? x / 4 then Some (x / 4, r') else None | None => None end
      else if prefix mod 4 =? 2 then
        match le_dec 4 bs with Some (x, r') => if 2 ^ 14 <=? x / 4 then Some (x / 4, r') else None | None => None end
      else let n := prefix / 4 + 4 in
        if maxb <? n then None
        else match le_dec (Z.to_nat n) r with
          | Some (x, r') => if (if n =? 4 then 2 ^ 30 else 256 ^ (n - 1)) <=? x then Some (x, r') else None
          | None => None end
  end.
Definition c_compact64 : codec Z := Codec compact_enc (compact_dec 8).
(** [Vec]: the length as a [Compact<u32>]. *)
Fixpoint dec_times {A} (c : codec A) (n : nat) (bs : list Z) : option (list A * list Z) :=
  match n with
  | O => Some ([], bs)
  | S n => match dec c bs with
    | Some (a, r) => match dec_times c n r with Some (l, r') => Some (a :: l, r') | None => None end
    | None => None end
  end.
Definition c_vec {A} (c : codec A) : codec (list A) := Codec (fun l => compact_enc (Z.of_nat (length l)) ++ flat_map (enc c) l)
  (fun bs => match compact_dec 4 bs with Some (n, r) => dec_times c (Z.to_nat n) r | None => None end).

(** bn254/src/fr.rs:70-71, fq.rs:47-48: [struct F([u64; 4])]. *)
Definition c_field : codec l4 :=
  c_iso (fun '(a, (b, (c, d))) => L4 a b c d) (fun l => (w0 l, (w1 l, (w2 l, w3 l)))) (c_pair c_u64 (c_pair c_u64 (c_pair c_u64 c_u64))).
(** zkstd/src/macros/extension_field.rs:16-17: [[F; 2]], [[F; 3]]. *)
Definition c_ext2 {A} (c : codec A) : codec (A * A) := c_pair c c.
Definition c_ext3 {A} (c : codec A) : codec (A * (A * A)) := c_pair c (c_pair c c).
(** bn254/src/g1.rs:17-22, g2.rs:15-20, grumpkin/src/curve.rs:10-15: affine points [{x, y, is_infinity}];
    g1.rs:118-123, g2.rs:81-86, curve.rs:107-112: projective points [{x, y, z}]. *)
Definition c_affine {A} (c : codec A) : codec (A * (A * bool)) := c_pair c (c_pair c c_bool).
Definition c_projective {A} (c : codec A) : codec (A * (A * A)) := c_pair c (c_pair c c).
(** bn254/src/g2.rs:193-201 [PairingCoeff], [G2PairingAffine]. *)
Definition c_prepared := c_pair (c_vec (c_ext3 (c_ext2 c_field))) c_bool.
(** zkstd/src/r1cs/wire.rs:7-11: [Instance], [Witness]. *)
Definition c_wire : codec (Z + Z) := c_sum c_compact64 c_compact64.
(** zkstd/src/matrix/row.rs:8-9, matrix.rs:10-11, matrix/vector.rs:4-5. *)
Definition c_row := c_vec (c_pair c_wire c_field).
Definition c_matrix := c_vec c_row.
Definition c_dense := c_vec c_field.
(** nova/src/relaxed_r1cs.rs:11-22 [R1csShape]. *)
Definition c_shape := c_pair c_compact64 (c_pair c_compact64 (c_pair c_compact64 (c_pair c_matrix (c_pair c_matrix c_matrix)))).
(** nova/src/relaxed_r1cs/instance.rs:9-15, 38-48; witness.rs:7-10, 29-35. *)
Definition c_instance := c_pair (c_affine c_field) c_dense.
Definition c_relaxed_instance := c_pair (c_affine c_field) (c_pair (c_affine c_field) (c_pair c_field c_dense)).
Definition c_witness := c_dense.
Definition c_relaxed_witness := c_pair c_dense c_dense.
(** nova/src/pedersen.rs:4-7 [PedersenCommitment]. *)
Definition c_key := c_vec (c_affine c_field).
(** nova/src/proof.rs:11-35 [RecursiveProof]. *)
Definition c_proof := c_pair c_compact64 (c_pair c_dense (c_pair c_dense (c_pair c_dense (c_pair c_dense
  (c_pair (c_pair (c_pair c_instance c_witness) (c_pair (c_pair c_relaxed_instance c_relaxed_witness) (c_pair c_relaxed_instance c_relaxed_witness))) c_unit))))).
(** nova/src/ivc.rs:250-262 [PublicParams]. *)
Definition c_params := c_pair c_shape (c_pair c_shape (c_pair c_key (c_pair c_key c_unit))).

(** ** Raw encodings of points *)
(** [chunks_exact(8)]: the full chunks. *)
Fixpoint chunks8 (fuel : nat) (bs : list Z) : list (list Z) :=
  match fuel with
  | O => []
  | S f => if (8 <=? length bs)%nat then firstn 8 bs :: chunks8 f (skipn 8 bs) else []
  end.
(** grumpkin/src/curve.rs:20-43, bn254/src/g1.rs:36-59 [from_slice_unchecked]: limbs without a chunk stay zero; the
    chunks of any length of input are at most the fuel. *)
Definition from_slice_unchecked (bs : list Z) : l4 * (l4 * bool) :=
  let n i := match nth_error (chunks8 (length bs) bs) i with Some c => le_word c | None => 0 end in
  (L4 (n 0%nat) (n 1%nat) (n 2%nat) (n 3%nat),
   (L4 (n 4%nat) (n 5%nat) (n 6%nat) (n 7%nat), if (97 <=? length bs)%nat then nth 96 bs 0 =? 1 else false)).
(** grumpkin/src/curve.rs:45-59 [to_raw_bytes]: 97 bytes, of which 64 are the limbs and the last the flag. *)
Definition to_raw_bytes (p : l4 * (l4 * bool)) : list Z :=
  let '(x, (y, inf)) := p in
  flat_map (le_enc 8) (limbs x ++ limbs y) ++ repeat 0 32 ++ [if inf then 1 else 0].
