(** Model of zkstd/src/arithmetic/limbs/bits_256/{normal,represent}.rs and
    zkstd/src/arithmetic/utils.rs: 256-bit arithmetic on four 64-bit limbs.

    Words are integers [Z]; a [u64] is an integer in [0, 2^64).  [u128]
    additions and multiplications of the source never exceed 2^128 - 1
    (theorem [mac_no_overflow] in LimbProofs.v), so they are modelled without
    wrap; the explicitly wrapping operations ([wrapping_sub], [wrapping_add],
    [wrapping_mul], [<<]) truncate explicitly ([w64], [w128]). *)
From Coq Require Import ZArith List Bool.
Import ListNotations.
Local Open Scope Z_scope.

Definition B : Z := 2 ^ 64.
Definition BB : Z := 2 ^ 128.

(** Truncation to 64 and to 128 bits, two's complement. *)
Definition w64 (s : Z) : Z := Z.land s 0xffffffffffffffff.
Definition w128 (s : Z) : Z := Z.land s 0xffffffffffffffffffffffffffffffff.

(** [s as u64] for a u128 [s]. *)
Definition lo (s : Z) : Z := w64 s.
(** [(s >> 64) as u64] for a u128 [s]. *)
Definition hi (s : Z) : Z := w64 (Z.shiftr s 64).

(** The recurrent pair [(s as u64, (s >> 64) as u64)]. *)
Definition halves (s : Z) : Z * Z := (lo s, hi s).

(** [u64::wrapping_add], [u64::wrapping_sub], [u64::wrapping_mul]. *)
Definition wadd (x y : Z) : Z := w64 (x + y).
Definition wsub (x y : Z) : Z := w64 (x - y).
Definition wmul (x y : Z) : Z := w64 (x * y).
(** [x << 1] on u64 (the top bit is lost) and [x >> n]. *)
Definition shl1 (x : Z) : Z := w64 (2 * x).
Definition shr (x n : Z) : Z := Z.shiftr x n.

(** [[u64; 4]] and [[u64; 8]]. *)
Record l4 := L4 { w0 : Z; w1 : Z; w2 : Z; w3 : Z }.
Record l8 := L8 { v0 : Z; v1 : Z; v2 : Z; v3 : Z; v4 : Z; v5 : Z; v6 : Z; v7 : Z }.

(** utils.rs:4-7 [sbb]: subtract with borrow; the borrow word is all ones or zero,
    and its top bit ([brw >> 63]) is the incoming borrow. *)
Definition sbb (x y brw : Z) : Z * Z :=
  let t := w128 (x - (y + shr brw 63)) in (lo t, hi t).

(** normal.rs:35-42: [a - b] over four limbs and the final borrow word (same code at
    13-20, 62-69 and 235-242, with [b] the modulus). *)
Definition sub4 (a b : l4) : l4 * Z :=
  let (r0, brw) := halves (w128 (w0 a - w0 b)) in
  let (r1, brw) := halves (w128 (w1 a - (w1 b + shr brw 63))) in
  let (r2, brw) := halves (w128 (w2 a - (w2 b + shr brw 63))) in
  let (r3, brw) := halves (w128 (w3 a - (w3 b + shr brw 63))) in
  (L4 r0 r1 r2 r3, brw).

(** normal.rs:44-50: add back [p & brw] (same code at 22-28, 71-77 and 244-250). *)
Definition add_masked (l p : l4) (brw : Z) : l4 :=
  let (r0, c) := halves (w0 l + Z.land (w0 p) brw) in
  let (r1, c) := halves (w1 l + Z.land (w1 p) brw + c) in
  let (r2, c) := halves (w2 l + Z.land (w2 p) brw + c) in
  let r3 := wadd (wadd (w3 l) (Z.land (w3 p) brw)) c in
  L4 r0 r1 r2 r3.

(** normal.rs:13-28 / 62-77 / 235-250: subtract [p], add it back on borrow. *)
Definition cond_sub (l p : l4) : l4 :=
  let (d, brw) := sub4 l p in add_masked d p brw.

(** normal.rs:4-31 [add]. *)
Definition add (a b p : l4) : l4 :=
  let (r0, c) := halves (w0 a + w0 b) in
  let (r1, c) := halves (w1 a + w1 b + c) in
  let (r2, c) := halves (w2 a + w2 b + c) in
  let r3 := wadd (wadd (w3 a) (w3 b)) c in
  cond_sub (L4 r0 r1 r2 r3) p.

(** normal.rs:34-53 [sub]. *)
Definition sub (a b p : l4) : l4 :=
  let (d, brw) := sub4 a b in add_masked d p brw.

(** normal.rs:56-80 [double]. *)
Definition double (a p : l4) : l4 :=
  let r0 := shl1 (w0 a) in
  let r1 := Z.lor (shl1 (w1 a)) (shr (w0 a) 63) in
  let r2 := Z.lor (shl1 (w2 a)) (shr (w1 a) 63) in
  let r3 := Z.lor (shl1 (w3 a)) (shr (w2 a) 63) in
  cond_sub (L4 r0 r1 r2 r3) p.

(** normal.rs:187-253 [mont]: Montgomery reduction of eight limbs. *)
Definition mont (a : l8) (p : l4) (inv : Z) : l4 :=
  let rhs := wmul (v0 a) inv in
  let (_, d) := halves (rhs * w0 p + v0 a) in
  let (l1, d) := halves (v1 a + rhs * w1 p + d) in
  let (l2, d) := halves (v2 a + rhs * w2 p + d) in
  let (l3, d) := halves (v3 a + rhs * w3 p + d) in
  let (l4_, e) := halves (v4 a + d) in

  let rhs := wmul l1 inv in
  let (_, d) := halves (rhs * w0 p + l1) in
  let (l2, d) := halves (l2 + rhs * w1 p + d) in
  let (l3, d) := halves (l3 + rhs * w2 p + d) in
  let (l4_, d) := halves (l4_ + rhs * w3 p + d) in
  let (l5, e) := halves (v5 a + e + d) in

  let rhs := wmul l2 inv in
  let (_, d) := halves (rhs * w0 p + l2) in
  let (l3, d) := halves (l3 + rhs * w1 p + d) in
  let (l4_, d) := halves (l4_ + rhs * w2 p + d) in
  let (l5, d) := halves (l5 + rhs * w3 p + d) in
  let (l6, e) := halves (v6 a + e + d) in

  let rhs := wmul l3 inv in
  let (_, d) := halves (rhs * w0 p + l3) in
  let (l4_, d) := halves (l4_ + rhs * w1 p + d) in
  let (l5, d) := halves (l5 + rhs * w2 p + d) in
  let (l6, d) := halves (l6 + rhs * w3 p + d) in
  let l7 := wadd (wadd (v7 a) e) d in

  cond_sub (L4 l4_ l5 l6 l7) p.

(** normal.rs:84-118: schoolbook product, eight limbs. *)
Definition mul_wide (a b : l4) : l8 :=
  let (l0, c) := halves (w0 a * w0 b) in
  let (l1, c) := halves (w0 a * w1 b + c) in
  let (l2, c) := halves (w0 a * w2 b + c) in
  let (l3, l4_) := halves (w0 a * w3 b + c) in

  let (l1, c) := halves (w1 a * w0 b + l1) in
  let (l2, c) := halves (l2 + w1 a * w1 b + c) in
  let (l3, c) := halves (l3 + w1 a * w2 b + c) in
  let (l4_, l5) := halves (l4_ + w1 a * w3 b + c) in

  let (l2, c) := halves (w2 a * w0 b + l2) in
  let (l3, c) := halves (l3 + w2 a * w1 b + c) in
  let (l4_, c) := halves (l4_ + w2 a * w2 b + c) in
  let (l5, l6) := halves (l5 + w2 a * w3 b + c) in

  let (l3, c) := halves (w3 a * w0 b + l3) in
  let (l4_, c) := halves (l4_ + w3 a * w1 b + c) in
  let (l5, c) := halves (l5 + w3 a * w2 b + c) in
  let (l6, l7) := halves (l6 + w3 a * w3 b + c) in
  L8 l0 l1 l2 l3 l4_ l5 l6 l7.

(** normal.rs:83-121 [mul]. *)
Definition mul (a b p : l4) (inv : Z) : l4 := mont (mul_wide a b) p inv.

(** normal.rs:125-163: squaring, off-diagonal products doubled by shifts. *)
Definition square_wide (a : l4) : l8 :=
  let (l1, c) := halves (w1 a * w0 a) in
  let (l2, c) := halves (w2 a * w0 a + c) in
  let (l3, c) := halves (w3 a * w0 a + c) in
  let (l4_, c) := halves (w1 a * w3 a + c) in
  let (l5, l6) := halves (w2 a * w3 a + c) in
  let (l3, c) := halves (w1 a * w2 a + l3) in
  let (l4_, c) := halves (l4_ + c) in
  let l5 := wadd l5 c in

  let l7 := shr l6 63 in
  let l6 := Z.lor (shl1 l6) (shr l5 63) in
  let l5 := Z.lor (shl1 l5) (shr l4_ 63) in
  let l4_ := Z.lor (shl1 l4_) (shr l3 63) in
  let l3 := Z.lor (shl1 l3) (shr l2 63) in
  let l2 := Z.lor (shl1 l2) (shr l1 63) in
  let l1 := shl1 l1 in

  let (l0, c) := halves (w0 a * w0 a) in
  let (l1, c) := halves (l1 + c) in
  let (l2, c) := halves (l2 + w1 a * w1 a + c) in
  let (l3, c) := halves (l3 + c) in
  let (l4_, c) := halves (l4_ + w2 a * w2 a + c) in
  let (l5, c) := halves (l5 + c) in
  let (l6, c) := halves (l6 + w3 a * w3 a + c) in
  let l7 := wadd l7 c in
  L8 l0 l1 l2 l3 l4_ l5 l6 l7.

(** normal.rs:124-166 [square]. *)
Definition square (a p : l4) (inv : Z) : l4 := mont (square_wide a) p inv.

(** normal.rs:170-184 [neg]. *)
Definition neg (a p : l4) : l4 :=
  if Z.lor (Z.lor (Z.lor (w0 a) (w1 a)) (w2 a)) (w3 a) =? 0 then a
  else
    let (r0, b) := halves (w128 (w0 p - w0 a)) in
    let (r1, b) := halves (w128 (w1 p - (w1 a + shr b 63))) in
    let (r2, b) := halves (w128 (w2 p - (w2 a + shr b 63))) in
    let r3 := wsub (wsub (w3 p) (w3 a)) (shr b 63) in
    L4 r0 r1 r2 r3.

(** [a == b] on [[u64; 4]] (derived array equality; also group.rs:27-31
    of zkstd/src/macros/field: all limbs pairwise equal). *)
Definition eqb4 (a b : l4) : bool :=
  (w0 a =? w0 b) && (w1 a =? w1 b) && (w2 a =? w2 b) && (w3 a =? w3 b).

(** represent.rs:6-8 [zero]. *)
Definition zero4 : l4 := L4 0 0 0 0.

(** [u64::to_le_bytes]. *)
Definition le_bytes (x : Z) : list Z :=
  map (fun i => (x / 2 ^ (8 * i)) mod 256) [0; 1; 2; 3; 4; 5; 6; 7].

(** [byte >> i & 1] for [i] in 0..8. *)
Definition byte_bits (byte : Z) : list Z :=
  map (fun i => (byte / 2 ^ i) mod 2) [0; 1; 2; 3; 4; 5; 6; 7].

Definition limbs (a : l4) : list Z := [w0 a; w1 a; w2 a; w3 a].

(** represent.rs:39-46 / 54-61: the 256 bits in little-endian order of writing. *)
Definition le_bits (a : l4) : list Z :=
  flat_map (fun limb => flat_map byte_bits (le_bytes limb)) (limbs a).

(** represent.rs:36-48 [to_bits]: index runs downwards, so the array is the
    reversal of the order of writing (big endian). *)
Definition to_bits (a : l4) : list Z := rev (le_bits a).

(** utils.rs:10-14 [Naf] with its integer meaning, and 16-25 [From<i8>]
    ([None] = [unimplemented!()] panic). *)
Inductive naf := NZero | NPlus | NMinus.
Definition naf_of_i8 (v : Z) : option naf :=
  if v =? 0 then Some NZero else if v =? 1 then Some NPlus
  else if v =? -1 then Some NMinus else None.
Definition naf_eqb (a b : naf) : bool :=
  match a, b with NZero, NZero | NPlus, NPlus | NMinus, NMinus => true | _, _ => false end.

(** represent.rs:62-70: the digit stream; [carry] is the captured mutable variable.
    [None] if some digit hits the [unimplemented!()] branch. *)
Fixpoint naf_digits (carry : Z) (bits : list Z) : option (list naf) :=
  match bits with
  | [] => Some []
  | bit :: rest =>
      let triple := bit * 3 in
      let bit_3 := (triple + carry) mod 2 in
      let carry' := (triple + carry) / 2 in
      match naf_of_i8 (bit_3 - bit), naf_digits carry' rest with
      | Some d, Some ds => Some (d :: ds)
      | _, _ => None
      end
  end.

(** [Iterator::skip_while]. *)
Fixpoint skip_while {A} (f : A -> bool) (l : list A) : list A :=
  match l with [] => [] | x :: r => if f x then skip_while f r else l end.

(** represent.rs:51-78 [to_nafs]: 258 bits (two zero bits on top), digits reversed,
    leading zeros skipped, last element popped ([Vec::pop] on empty is a no-op). *)
Definition to_nafs (a : l4) : option (list naf) :=
  match naf_digits 0 (le_bits a ++ [0; 0]) with
  | Some ds => Some (removelast (skip_while (naf_eqb NZero) (rev ds)))
  | None => None
  end.

(** normal.rs:272-287 [pow]. *)
Definition pow (a b identity p : l4) (inv : Z) : l4 :=
  if eqb4 b zero4 then identity
  else if eqb4 a zero4 then zero4
  else fold_left (fun acc bit =>
         let acc := square acc p inv in
         if bit =? 1 then mul acc a p inv else acc) (to_bits b) identity.

(** normal.rs:256-269 [invert]. *)
Definition invert (a little_fermat identity p : l4) (inv : Z) : option l4 :=
  if eqb4 a zero4 then None else Some (pow a little_fermat identity p inv).

(** represent.rs:30-32 [to_mont_form]. *)
Definition to_mont_form (v r2 p : l4) (inv : Z) : l4 := mul v r2 p inv.
(** represent.rs:10-12 [one]. *)
Definition one (r2 p : l4) (inv : Z) : l4 := to_mont_form (L4 1 0 0 0) r2 p inv.
(** represent.rs:14-16 [from_u64]. *)
Definition from_u64 (v : Z) (r2 p : l4) (inv : Z) : l4 := to_mont_form (L4 v 0 0 0) r2 p inv.
(** represent.rs:18-28 [from_u512]. *)
Definition from_u512 (l : l8) (r2 r3 p : l4) (inv : Z) : l4 :=
  let a := mul (L4 (v0 l) (v1 l) (v2 l) (v3 l)) r2 p inv in
  let b := mul (L4 (v4 l) (v5 l) (v6 l) (v7 l)) r3 p inv in
  add a b p.
(** represent.rs:105-107 [little_fermat]. *)
Definition little_fermat (p : l4) : l4 := sub zero4 (L4 2 0 0 0) p.
