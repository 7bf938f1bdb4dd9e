(** Model of zkstd/src/arithmetic/limbs/bits_384/{normal,represent}.rs: 384-bit arithmetic on six
    64-bit limbs.  Words, halves and wrapping operations are those of LimbModel.v. *)
From Coq Require Import ZArith List Bool.
From Verif Require Import LimbModel.
Import ListNotations.
Local Open Scope Z_scope.

(** [[u64; 6]] and [[u64; 12]]. *)
Record limb6 := M6 { u0 : Z; u1 : Z; u2 : Z; u3 : Z; u4 : Z; u5 : Z }.
Record limb12 := M12 { t0 : Z; t1 : Z; t2 : Z; t3 : Z; t4 : Z; t5 : Z; t6 : Z; t7 : Z; t8 : Z; t9 : Z; t10 : Z; t11 : Z }.

(** normal.rs:47-58: [a - b] over six limbs and the final borrow word (same code at 17-28 and 84-95,
    with [b] the modulus). *)
Definition sub_wide6 (a b : limb6) : limb6 * Z :=
  let (r0, brw) := halves (w128 (u0 a - u0 b)) in
  let (r1, brw) := halves (w128 (u1 a - (u1 b + shr brw 63))) in
  let (r2, brw) := halves (w128 (u2 a - (u2 b + shr brw 63))) in
  let (r3, brw) := halves (w128 (u3 a - (u3 b + shr brw 63))) in
  let (r4, brw) := halves (w128 (u4 a - (u4 b + shr brw 63))) in
  let (r5, brw) := halves (w128 (u5 a - (u5 b + shr brw 63))) in
  (M6 r0 r1 r2 r3 r4 r5, brw).

(** normal.rs:60-72: add back [p & brw] (same code at 30-42 and 97-109). *)
Definition add_masked6 (l p : limb6) (brw : Z) : limb6 :=
  let (r0, c) := halves (u0 l + Z.land (u0 p) brw) in
  let (r1, c) := halves (u1 l + Z.land (u1 p) brw + c) in
  let (r2, c) := halves (u2 l + Z.land (u2 p) brw + c) in
  let (r3, c) := halves (u3 l + Z.land (u3 p) brw + c) in
  let (r4, c) := halves (u4 l + Z.land (u4 p) brw + c) in
  let r5 := wadd (wadd (u5 l) (Z.land (u5 p) brw)) c in
  M6 r0 r1 r2 r3 r4 r5.

(** normal.rs:46-73 [sub]. *)
Definition sub6 (a b p : limb6) : limb6 :=
  let (d, brw) := sub_wide6 a b in add_masked6 d p brw.

(** normal.rs:4-43 [add]; lines 17-42 are the body of [sub] with the modulus as subtrahend. *)
Definition add6 (a b p : limb6) : limb6 :=
  let (l0, c) := halves (u0 a + u0 b) in
  let (l1, c) := halves (u1 a + u1 b + c) in
  let (l2, c) := halves (u2 a + u2 b + c) in
  let (l3, c) := halves (u3 a + u3 b + c) in
  let (l4, c) := halves (u4 a + u4 b + c) in
  let l5 := wadd (wadd (u5 a) (u5 b)) c in
  sub6 (M6 l0 l1 l2 l3 l4 l5) p p.

(** normal.rs:76-110 [double]; lines 84-109 as in [add]. *)
Definition double6 (a p : limb6) : limb6 :=
  let l0 := shl1 (u0 a) in
  let l1 := Z.lor (shl1 (u1 a)) (shr (u0 a) 63) in
  let l2 := Z.lor (shl1 (u2 a)) (shr (u1 a) 63) in
  let l3 := Z.lor (shl1 (u3 a)) (shr (u2 a) 63) in
  let l4 := Z.lor (shl1 (u4 a)) (shr (u3 a) 63) in
  let l5 := Z.lor (shl1 (u5 a)) (shr (u4 a) 63) in
  sub6 (M6 l0 l1 l2 l3 l4 l5) p p.

(** normal.rs:297-394 [mont]: Montgomery reduction of twelve limbs. *)
Definition mont6 (a : limb12) (p : limb6) (inv : Z) : limb6 :=
  let rhs := wmul (t0 a) inv in
  let (_, d) := halves (rhs * u0 p + t0 a) in
  let (l1, d) := halves (t1 a + rhs * u1 p + d) in
  let (l2, d) := halves (t2 a + rhs * u2 p + d) in
  let (l3, d) := halves (t3 a + rhs * u3 p + d) in
  let (l4, d) := halves (t4 a + rhs * u4 p + d) in
  let (l5, d) := halves (t5 a + rhs * u5 p + d) in
  let (l6, e) := halves (t6 a + d) in

  let rhs := wmul l1 inv in
  let (_, d) := halves (rhs * u0 p + l1) in
  let (l2, d) := halves (l2 + rhs * u1 p + d) in
  let (l3, d) := halves (l3 + rhs * u2 p + d) in
  let (l4, d) := halves (l4 + rhs * u3 p + d) in
  let (l5, d) := halves (l5 + rhs * u4 p + d) in
  let (l6, d) := halves (l6 + rhs * u5 p + d) in
  let (l7, e) := halves (t7 a + e + d) in

  let rhs := wmul l2 inv in
  let (_, d) := halves (rhs * u0 p + l2) in
  let (l3, d) := halves (l3 + rhs * u1 p + d) in
  let (l4, d) := halves (l4 + rhs * u2 p + d) in
  let (l5, d) := halves (l5 + rhs * u3 p + d) in
  let (l6, d) := halves (l6 + rhs * u4 p + d) in
  let (l7, d) := halves (l7 + rhs * u5 p + d) in
  let (l8, e) := halves (t8 a + e + d) in

  let rhs := wmul l3 inv in
  let (_, d) := halves (rhs * u0 p + l3) in
  let (l4, d) := halves (l4 + rhs * u1 p + d) in
  let (l5, d) := halves (l5 + rhs * u2 p + d) in
  let (l6, d) := halves (l6 + rhs * u3 p + d) in
  let (l7, d) := halves (l7 + rhs * u4 p + d) in
  let (l8, d) := halves (l8 + rhs * u5 p + d) in
  let (l9, e) := halves (t9 a + e + d) in

  let rhs := wmul l4 inv in
  let (_, d) := halves (rhs * u0 p + l4) in
  let (l5, d) := halves (l5 + rhs * u1 p + d) in
  let (l6, d) := halves (l6 + rhs * u2 p + d) in
  let (l7, d) := halves (l7 + rhs * u3 p + d) in
  let (l8, d) := halves (l8 + rhs * u4 p + d) in
  let (l9, d) := halves (l9 + rhs * u5 p + d) in
  let (l10, e) := halves (t10 a + e + d) in

  let rhs := wmul l5 inv in
  let (_, d) := halves (rhs * u0 p + l5) in
  let (l6, d) := halves (l6 + rhs * u1 p + d) in
  let (l7, d) := halves (l7 + rhs * u2 p + d) in
  let (l8, d) := halves (l8 + rhs * u3 p + d) in
  let (l9, d) := halves (l9 + rhs * u4 p + d) in
  let (l10, d) := halves (l10 + rhs * u5 p + d) in
  let l11 := wadd (wadd (t11 a) e) d in

  sub6 (M6 l6 l7 l8 l9 l10 l11) p p.

(** normal.rs:114-190: schoolbook product, twelve limbs. *)
Definition mul_wide6 (a b : limb6) : limb12 :=
  let (l0, c) := halves (u0 a * u0 b) in
  let (l1, c) := halves (u0 a * u1 b + c) in
  let (l2, c) := halves (u0 a * u2 b + c) in
  let (l3, c) := halves (u0 a * u3 b + c) in
  let (l4, c) := halves (u0 a * u4 b + c) in
  let (l5, l6) := halves (u0 a * u5 b + c) in

  let (l1, c) := halves (u1 a * u0 b + l1) in
  let (l2, c) := halves (l2 + u1 a * u1 b + c) in
  let (l3, c) := halves (l3 + u1 a * u2 b + c) in
  let (l4, c) := halves (l4 + u1 a * u3 b + c) in
  let (l5, c) := halves (l5 + u1 a * u4 b + c) in
  let (l6, l7) := halves (l6 + u1 a * u5 b + c) in

  let (l2, c) := halves (u2 a * u0 b + l2) in
  let (l3, c) := halves (l3 + u2 a * u1 b + c) in
  let (l4, c) := halves (l4 + u2 a * u2 b + c) in
  let (l5, c) := halves (l5 + u2 a * u3 b + c) in
  let (l6, c) := halves (l6 + u2 a * u4 b + c) in
  let (l7, l8) := halves (l7 + u2 a * u5 b + c) in

  let (l3, c) := halves (u3 a * u0 b + l3) in
  let (l4, c) := halves (l4 + u3 a * u1 b + c) in
  let (l5, c) := halves (l5 + u3 a * u2 b + c) in
  let (l6, c) := halves (l6 + u3 a * u3 b + c) in
  let (l7, c) := halves (l7 + u3 a * u4 b + c) in
  let (l8, l9) := halves (l8 + u3 a * u5 b + c) in

  let (l4, c) := halves (u4 a * u0 b + l4) in
  let (l5, c) := halves (l5 + u4 a * u1 b + c) in
  let (l6, c) := halves (l6 + u4 a * u2 b + c) in
  let (l7, c) := halves (l7 + u4 a * u3 b + c) in
  let (l8, c) := halves (l8 + u4 a * u4 b + c) in
  let (l9, l10) := halves (l9 + u4 a * u5 b + c) in

  let (l5, c) := halves (u5 a * u0 b + l5) in
  let (l6, c) := halves (l6 + u5 a * u1 b + c) in
  let (l7, c) := halves (l7 + u5 a * u2 b + c) in
  let (l8, c) := halves (l8 + u5 a * u3 b + c) in
  let (l9, c) := halves (l9 + u5 a * u4 b + c) in
  let (l10, l11) := halves (l10 + u5 a * u5 b + c) in

  M12 l0 l1 l2 l3 l4 l5 l6 l7 l8 l9 l10 l11.

(** normal.rs:113-193 [mul]. *)
Definition mul6 (a b p : limb6) (inv : Z) : limb6 := mont6 (mul_wide6 a b) p inv.

(** normal.rs:197-270: squaring, off-diagonal products doubled by shifts. *)
Definition square_wide6 (a : limb6) : limb12 :=
  let (l1, c) := halves (u1 a * u0 a) in
  let (l2, c) := halves (u2 a * u0 a + c) in
  let (l3, c) := halves (u3 a * u0 a + c) in
  let (l4, c) := halves (u4 a * u0 a + c) in
  let (l5, c) := halves (u5 a * u0 a + c) in
  let (l6, c) := halves (u1 a * u5 a + c) in
  let (l7, c) := halves (u2 a * u5 a + c) in
  let (l8, c) := halves (u3 a * u5 a + c) in
  let (l9, l10) := halves (u4 a * u5 a + c) in

  let (l3, c) := halves (u1 a * u2 a + l3) in
  let (l4, c) := halves (l4 + u1 a * u3 a + c) in
  let (l5, c) := halves (l5 + u1 a * u4 a + c) in
  let (l6, c) := halves (l6 + u2 a * u4 a + c) in
  let (l7, c) := halves (l7 + u3 a * u4 a + c) in
  let (l8, c) := halves (l8 + c) in
  let l9 := wadd l9 c in

  let (l5, c) := halves (u2 a * u3 a + l5) in
  let (l6, c) := halves (l6 + c) in
  let l7 := wadd l7 c in

  let l11 := shr l10 63 in
  let l10 := Z.lor (shl1 l10) (shr l9 63) in
  let l9 := Z.lor (shl1 l9) (shr l8 63) in
  let l8 := Z.lor (shl1 l8) (shr l7 63) in
  let l7 := Z.lor (shl1 l7) (shr l6 63) in
  let l6 := Z.lor (shl1 l6) (shr l5 63) in
  let l5 := Z.lor (shl1 l5) (shr l4 63) in
  let l4 := Z.lor (shl1 l4) (shr l3 63) in
  let l3 := Z.lor (shl1 l3) (shr l2 63) in
  let l2 := Z.lor (shl1 l2) (shr l1 63) in
  let l1 := shl1 l1 in

  let (l0, c) := halves (u0 a * u0 a) in
  let (l1, c) := halves (l1 + c) in
  let (l2, c) := halves (l2 + u1 a * u1 a + c) in
  let (l3, c) := halves (l3 + c) in
  let (l4, c) := halves (l4 + u2 a * u2 a + c) in
  let (l5, c) := halves (l5 + c) in
  let (l6, c) := halves (l6 + u3 a * u3 a + c) in
  let (l7, c) := halves (l7 + c) in
  let (l8, c) := halves (l8 + u4 a * u4 a + c) in
  let (l9, c) := halves (l9 + c) in
  let (l10, c) := halves (l10 + u5 a * u5 a + c) in
  let l11 := wadd l11 c in

  M12 l0 l1 l2 l3 l4 l5 l6 l7 l8 l9 l10 l11.

(** normal.rs:196-273 [square]. *)
Definition square6 (a p : limb6) (inv : Z) : limb6 := mont6 (square_wide6 a) p inv.

(** normal.rs:276-294 [neg]. *)
Definition neg6 (a p : limb6) : limb6 :=
  if Z.lor (Z.lor (Z.lor (Z.lor (Z.lor (u0 a) (u1 a)) (u2 a)) (u3 a)) (u4 a)) (u5 a) =? 0 then a
  else
    let (r0, b) := halves (w128 (u0 p - u0 a)) in
    let (r1, b) := halves (w128 (u1 p - (u1 a + shr b 63))) in
    let (r2, b) := halves (w128 (u2 p - (u2 a + shr b 63))) in
    let (r3, b) := halves (w128 (u3 p - (u3 a + shr b 63))) in
    let (r4, b) := halves (w128 (u4 p - (u4 a + shr b 63))) in
    let r5 := wsub (wsub (u5 p) (u5 a)) (shr b 63) in
    M6 r0 r1 r2 r3 r4 r5.

(** [a == b] on [[u64; 6]] (normal.rs:405, 415-417). *)
Definition eqb6 (a b : limb6) : bool :=
  (u0 a =? u0 b) && (u1 a =? u1 b) && (u2 a =? u2 b) && (u3 a =? u3 b) && (u4 a =? u4 b) && (u5 a =? u5 b).

(** represent.rs:6-8 [zero]. *)
Definition zero6 : limb6 := M6 0 0 0 0 0 0.

Definition limbs6 (a : limb6) : list Z := [u0 a; u1 a; u2 a; u3 a; u4 a; u5 a].

(** represent.rs:48-55 / 63-70: the 384 bits in the order in which they are written. *)
Definition le_bits6 (a : limb6) : list Z :=
  flat_map (fun limb => flat_map byte_bits (le_bytes limb)) (limbs6 a).

(** represent.rs:45-57 [to_bits]: the index runs downwards. *)
Definition to_bits6 (a : limb6) : list Z := rev (le_bits6 a).

(** represent.rs:60-88 [to_nafs]: 386 bits (two zero bits on top), digits reversed, leading zeros
    skipped, last element popped, and the order restored. *)
Definition to_nafs6 (a : limb6) : option (list naf) :=
  match naf_digits 0 (le_bits6 a ++ [0; 0]) with
  | Some ds => Some (rev (removelast (skip_while (naf_eqb NZero) (rev ds))))
  | None => None
  end.

(** normal.rs:413-428 [pow]. *)
Definition pow6 (a b identity p : limb6) (inv : Z) : limb6 :=
  if eqb6 b zero6 then identity
  else if eqb6 a zero6 then zero6
  else fold_left (fun acc bit =>
         let acc := square6 acc p inv in
         if bit =? 1 then mul6 acc a p inv else acc) (to_bits6 b) identity.

(** normal.rs:397-410 [invert]. *)
Definition invert6 (a little_fermat identity p : limb6) (inv : Z) : option limb6 :=
  if eqb6 a zero6 then None else Some (pow6 a little_fermat identity p inv).

(** represent.rs:40-42 [to_mont_form]. *)
Definition to_mont_form6 (v r2 p : limb6) (inv : Z) : limb6 := mul6 v r2 p inv.
(** represent.rs:10-12 [one]. *)
Definition one6 (r2 p : limb6) (inv : Z) : limb6 := to_mont_form6 (M6 1 0 0 0 0 0) r2 p inv.
(** represent.rs:14-16 [from_u64]. *)
Definition from_u64_6 (v : Z) (r2 p : limb6) (inv : Z) : limb6 := to_mont_form6 (M6 v 0 0 0 0 0) r2 p inv.
(** represent.rs:18-38 [from_u512], on twelve words; [random_limbs] (90-117) is this function on
    twelve words of the generator. *)
Definition from_u512_6 (l : limb12) (r2 r3 p : limb6) (inv : Z) : limb6 :=
  let a := mul6 (M6 (t0 l) (t1 l) (t2 l) (t3 l) (t4 l) (t5 l)) r2 p inv in
  let b := mul6 (M6 (t6 l) (t7 l) (t8 l) (t9 l) (t10 l) (t11 l)) r3 p inv in
  add6 a b p.
(** represent.rs:119-121 [little_fermat]. *)
Definition little_fermat6 (p : limb6) : limb6 := sub6 zero6 (M6 2 0 0 0 0 0) p.
