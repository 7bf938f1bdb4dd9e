(** Model of the prime-field API generated by the macros of
    zkstd/src/macros/field.rs, zkstd/src/macros/field/{group,ring}.rs and of the two
    fields bn254/src/fr.rs and bn254/src/fq.rs.

    A field element is its four limbs ([l4]) in Montgomery form, as in the source
    ([struct Fr(pub [u64; 4])]).  The macro parameters are a record. *)
From Coq Require Import ZArith List Bool.
From Verif Require Import LimbModel.
Import ListNotations.
Local Open Scope Z_scope.

(** Macro parameters [$p, $inv, $r, $r2, $r3] (field.rs:12, 112, 208). *)
Record fparams := FP { fmod : l4; finv : Z; fR : l4; fR2 : l4; fR3 : l4 }.

(** bn254/src/fr.rs:11-51. *)
Definition fr : fparams := {|
  fmod := L4 0x43e1f593f0000001 0x2833e84879b97091 0xb85045b68181585d 0x30644e72e131a029;
  finv := 0xc2e1f593efffffff;
  fR := L4 0xac96341c4ffffffb 0x36fc76959f60cd29 0x666ea36f7879462e 0x0e0a77c19a07df2f;
  fR2 := L4 0x1bb8e645ae216da7 0x53fe3ab1e35c59e3 0x8c49833d53bb8085 0x0216d0b17f4e44a5;
  fR3 := L4 0x5e94d8e1b4bf0040 0x2a489cbe1cfbb6b8 0x893cc664a19fcfed 0x0cf8594b7fcc657c |}.

(** bn254/src/fq.rs:10-44. *)
Definition fq : fparams := {|
  fmod := L4 0x3c208c16d87cfd47 0x97816a916871ca8d 0xb85045b68181585d 0x30644e72e131a029;
  finv := 0x87d20782e4866389;
  fR := L4 0xd35d438dc58f0d9d 0x0a78eb28f5c70b3d 0x666ea36f7879462c 0x0e0a77c19a07df2f;
  fR2 := L4 0xf32cfc5b538afa89 0xb5e71911d44501fb 0x47ab1eff0a417ff6 0x06d89f71cab8351f;
  fR3 := L4 0xb1cd6dafda1530df 0x62f210e6a7283db6 0xef7f0b0c0ada0afb 0x20fd6e902d592544 |}.

Section Field.
Variable P : fparams.
Notation p := (fmod P).
Notation inv := (finv P).

(** field/group.rs:36-42 [Add], 80-86 [Sub], 72-78 [Neg], 88-94 [Mul]. *)
Definition fadd (a b : l4) : l4 := add a b p.
Definition fsub (a b : l4) : l4 := sub a b p.
Definition fneg (a : l4) : l4 := neg a p.
Definition fmul (a b : l4) : l4 := mul a b p inv.
(** field.rs:53-55 [double], 57-59 [square]. *)
Definition fdouble (a : l4) : l4 := double a p.
Definition fsquare (a : l4) : l4 := square a p inv.
(** field/group.rs:176-184 [zero], [one]; 21-25 [IntGroup::zero]; ring.rs:7-13 [Ring::one]. *)
Definition fzero : l4 := zero4.
Definition fone : l4 := fR P.
(** field/group.rs:27-31 [PartialEq::eq]. *)
Definition feqb (a b : l4) : bool := eqb4 a b.
(** field.rs:41-43 [is_zero]. *)
Definition fis_zero (a : l4) : bool :=
  (w0 a =? 0) && (w1 a =? 0) && (w2 a =? 0) && (w3 a =? 0).
(** field/group.rs:9-14 [Group::invert]. *)
Definition finvert (a : l4) : option l4 := invert a (little_fermat p) (fR P) p inv.
(** field.rs:213-221 [Div] ([None] = [unwrap] panic). *)
Definition fdiv (a b : l4) : option l4 :=
  match finvert b with Some i => Some (fmul a i) | None => None end.
(** field.rs:223-228 [DivAssign]. *)
Definition fdiv_assign (a b : l4) : option l4 :=
  match finvert b with Some i => Some (fmul a i) | None => None end.

(** field/group.rs:7 [ADDITIVE_IDENTITY] ([$r], i.e. one) and ring.rs:15-19 [Default]. *)
Definition additive_identity : l4 := fR P.
Definition fdefault : l4 := fR P.

(** By-reference and assigning operator forms, field/group.rs:44-174. *)
Definition add_ref_ref (a b : l4) : l4 := add a b p.                 (* 44-50 *)
Definition add_ref_val (a b : l4) : l4 := add a b p.                 (* 52-58 *)
Definition add_val_ref (a b : l4) : l4 := add a b p.                 (* 60-66 *)
Definition add_assign_ref (a b : l4) : l4 := add a b p.              (* 68-72 *)
Definition mul_ref_ref (a b : l4) : l4 := mul a b p inv.             (* 102-108 *)
Definition mul_assign_ref (a b : l4) : l4 := mul_ref_ref a b.        (* 96-100: [&*self * rhs] *)
Definition mul_val_ref (a b : l4) : l4 := mul a b p inv.             (* 110-116 *)
Definition mul_ref_val (a b : l4) : l4 := mul a b p inv.             (* 118-124 *)
Definition add_assign_val (a b : l4) : l4 := fadd a b.               (* 134-138 *)
Definition sub_assign_val (a b : l4) : l4 := fsub a b.               (* 140-144 *)
Definition sub_assign_ref (a b : l4) : l4 := sub a b p.              (* 146-150 *)
Definition sub_ref_ref (a b : l4) : l4 := sub a b p.                 (* 152-158 *)
Definition sub_val_ref (a b : l4) : l4 := sub a b p.                 (* 160-166 *)
Definition sub_ref_val (a b : l4) : l4 := sub a b p.                 (* 168-174 *)
Definition mul_assign_val (a b : l4) : l4 := fmul a b.               (* 176-180 *)
Definition double_assign (a : l4) : l4 := double a p.                (* field.rs:61-63 *)
Definition square_assign (a : l4) : l4 := square a p inv.            (* field.rs:65-67 *)

(** field/group.rs:126-132 [Neg for &field]: the body [-self] resolves to itself.
    [fuel] counts stack frames; [None] = stack exhausted. *)
Fixpoint neg_ref (fuel : nat) (a : l4) : option l4 :=
  match fuel with O => None | S f => neg_ref f a end.

(** field/ring.rs:21-72: comparisons, most significant limb first. *)
Fixpoint cmp_lex (a b : list Z) : comparison :=
  match a, b with
  | x :: a', y :: b' => if x <? y then Lt else if y <? x then Gt else cmp_lex a' b'
  | _, _ => Eq
  end.
Definition fcmp (a b : l4) : comparison := cmp_lex (rev (limbs a)) (rev (limbs b)).
Fixpoint first_diff (f : Z -> Z -> bool) (dflt : bool) (a b : list Z) : bool :=
  match a, b with
  | x :: a', y :: b' => if negb (x =? y) then f x y else first_diff f dflt a' b'
  | _, _ => dflt
  end.
Definition flt (a b : l4) : bool := first_diff Z.ltb false (rev (limbs a)) (rev (limbs b)).
Definition fle (a b : l4) : bool := first_diff Z.ltb true (rev (limbs a)) (rev (limbs b)).
Definition fgt (a b : l4) : bool := first_diff Z.gtb false (rev (limbs a)) (rev (limbs b)).
Definition fge (a b : l4) : bool := first_diff Z.gtb true (rev (limbs a)) (rev (limbs b)).

(** field.rs:30-34 [From<u64>]. *)
Definition ffrom_u64 (v : Z) : l4 := from_u64 v (fR2 P) p inv.
(** fr.rs:114-116 / fq.rs:90-92 [to_mont_form]. *)
Definition fto_mont_form (v : l4) : l4 := to_mont_form v (fR2 P) p inv.
(** fr.rs:122-128 / fq.rs:94-100 [montgomery_reduce]; field.rs:167-173 [reduce]. *)
Definition montgomery_reduce (a : l4) : l4 :=
  mont (L8 (w0 a) (w1 a) (w2 a) (w3 a) 0 0 0 0) p inv.
Definition freduce (a : l4) : l4 := montgomery_reduce a.
(** field.rs:195-199 [From<[u64; 4]>]: no conversion. *)
Definition ffrom_limbs (v : l4) : l4 := v.

(** [u64::from_le_bytes] on [bytes[i..i+8]]. *)
Definition le_word (l : list Z) : Z := fold_right (fun b acc => b + 256 * acc) 0 l.
Definition slice8 (bytes : list Z) (i : nat) : Z := le_word (firstn 8 (skipn i bytes)).

(** field.rs:83-100 [from_bytes_wide]. *)
Definition from_bytes_wide (bytes : list Z) : l4 :=
  from_u512 (L8 (slice8 bytes 0) (slice8 bytes 8) (slice8 bytes 16) (slice8 bytes 24)
                (slice8 bytes 32) (slice8 bytes 40) (slice8 bytes 48) (slice8 bytes 56))
            (fR2 P) (fR3 P) p inv.
(** field.rs:151-165 [from_hash]. *)
Definition from_hash (h : list Z) : l4 :=
  let d0 := L4 (slice8 h 0) (slice8 h 8) (slice8 h 16) (slice8 h 24) in
  let d1 := L4 (slice8 h 32) (slice8 h 40) (slice8 h 48) (slice8 h 56) in
  fadd (fmul d0 (fR2 P)) (fmul d1 (fR3 P)).
(** represent.rs:80-103 [random_limbs], field/group.rs:16-18 [random]: the rng is the list of
    the eight words it returns. *)
Definition frandom (r0 r1 r2 r3 r4 r5 r6 r7 : Z) : l4 :=
  from_u512 (L8 r0 r1 r2 r3 r4 r5 r6 r7) (fR2 P) (fR3 P) p inv.

(** fr.rs:74-84 / fq.rs:51-61 [to_bytes]; field.rs:102-104 [to_raw_bytes]. *)
Definition to_bytes (a : l4) : list Z :=
  flat_map le_bytes (limbs (montgomery_reduce a)).
(** fr.rs:86-103 / fq.rs:63-79 [from_bytes]; [borrow & 1 == 1]. *)
Definition from_bytes (bytes : list Z) : option l4 :=
  let l := L4 (slice8 bytes 0) (slice8 bytes 8) (slice8 bytes 16) (slice8 bytes 24) in
  let (_, brw) := sbb (w0 l) (w0 p) 0 in
  let (_, brw) := sbb (w1 l) (w1 p) brw in
  let (_, brw) := sbb (w2 l) (w2 p) brw in
  let (_, brw) := sbb (w3 l) (w3 p) brw in
  if brw mod 2 =? 1 then Some (fmul l (fR2 P)) else None.

(** field.rs:45-51. *)
Definition fto_bits (a : l4) : list Z := to_bits (montgomery_reduce a).
Definition fto_nafs (a : l4) : option (list naf) := to_nafs (montgomery_reduce a).

(** field.rs:122-124 [FftField::pow]. *)
Definition fpow (a : l4) (v : Z) : l4 := pow a (L4 v 0 0 0) (fR P) p inv.

(** The 64 bits of a limb from the top: [(e >> i) & 1] for [i] in [(0..64).rev()]. *)
Definition word_bits_be (e : Z) : list Z :=
  map (fun i => (e / 2 ^ (Z.of_nat i)) mod 2) (rev (seq 0 64)).
(** fr.rs:151-163 / fq.rs:106-118 [pow_vartime]. *)
Definition pow_vartime (a by_ : l4) : l4 :=
  fold_left (fun res bit => let res := fsquare res in if bit =? 1 then fmul res a else res)
    (flat_map word_bits_be (rev (limbs by_))) fone.
(** field.rs:69-81 [pow_of_2]. *)
Definition pow_of_2 (by_ : Z) : l4 :=
  let two := ffrom_u64 2 in
  fold_left (fun res bit => let res := fsquare res in let tmp := fmul res two in
                            if bit =? 1 then tmp else res)
    (word_bits_be by_) fone.

(** fr.rs:130-144 [to_costomized_repr]: base-4 digits, leading zeros dropped. *)
Definition byte_quads (byte : Z) : list Z :=
  map (fun i => (byte / 2 ^ (2 * i)) mod 4) [0; 1; 2; 3].
Definition to_costomized_repr (a : l4) : list Z :=
  skip_while (Z.eqb 0)
    (rev (flat_map (fun limb => flat_map byte_quads (le_bytes limb)) (limbs (montgomery_reduce a)))).

(** fr.rs:146-149 [is_odd]. *)
Definition is_odd (a : l4) : bool := negb (w0 (montgomery_reduce a) mod 2 =? 0).
(** field.rs:175-177 [is_even]: on the Montgomery limbs. *)
Definition is_even (a : l4) : bool := w0 a mod 2 =? 0.
(** field.rs:179-181 [mod_2_pow_k], for [k < 64] ([1 << k] overflows beyond: debug panic). *)
Definition mod_2_pow_k (a : l4) (k : Z) : Z := (Z.land (w0 a) (2 ^ k - 1)) mod 256.

(** fr.rs:211-224, 234-247 [BitXor], [BitAnd]. *)
Definition fxor (a b : l4) : l4 :=
  let a := montgomery_reduce a in let b := montgomery_reduce b in
  fto_mont_form (L4 (Z.lxor (w0 a) (w0 b)) (Z.lxor (w1 a) (w1 b))
                    (Z.lxor (w2 a) (w2 b)) (Z.lxor (w3 a) (w3 b))).
Definition fand (a b : l4) : l4 :=
  let a := montgomery_reduce a in let b := montgomery_reduce b in
  fto_mont_form (L4 (Z.land (w0 a) (w0 b)) (Z.land (w1 a) (w1 b))
                    (Z.land (w2 a) (w2 b)) (Z.land (w3 a) (w3 b))).

(** fr.rs:257-279 / fq.rs:159-181 [Product], [Sum]. *)
Definition fproduct (l : list l4) : l4 := fold_left fmul l fone.
Definition fsum (l : list l4) : l4 := fold_left fadd l fzero.

(** field.rs:126-149 [divn]: one whole-limb shift, one bit shift. *)
Definition shift_limb (a : l4) : l4 := L4 (w1 a) (w2 a) (w3 a) 0.
Definition shift_bits (a : l4) (n : Z) : l4 :=
  let up x := (x * 2 ^ (64 - n)) mod B in
  L4 (Z.lor (shr (w0 a) n) (up (w1 a))) (Z.lor (shr (w1 a) n) (up (w2 a)))
     (Z.lor (shr (w2 a) n) (up (w3 a))) (Z.lor (shr (w3 a) n) 0).
Fixpoint divn_limbs (fuel : nat) (a : l4) (n : Z) : l4 * Z :=
  match fuel with
  | O => (a, n)
  | S f => if 64 <=? n then divn_limbs f (shift_limb a) (n - 64) else (a, n)
  end.
(** [n < 256] leaves at most three whole-limb shifts, so the fuel is never exhausted early. *)
Definition divn (a : l4) (n : Z) : l4 :=
  if 256 <=? n then ffrom_u64 0
  else let (a, n) := divn_limbs 4 a n in if 0 <? n then shift_bits a n else a.

End Field.

(** fr.rs:60-65 [ROOT_OF_UNITY], fr.rs:53 [S], fr.rs:18-21 [MULTIPLICATIVE_GENERATOR]. *)
Definition fr_root_of_unity : l4 :=
  fto_mont_form fr (L4 0xd34f1ed960c37c9c 0x3215cf6dd39329c8 0x98865ea93dd31f74 0x03ddb9f5166d18b7).
Definition fr_S : Z := 28.
Definition fr_generator : l4 := fto_mont_form fr (L4 7 0 0 0).

(** fr.rs:294-298 and fq.rs:185-189: [From<Fq> for Fr], [From<Fr> for Fq]. *)
Definition fr_of_fq (a : l4) : l4 := fto_mont_form fr (montgomery_reduce fq a).
Definition fq_of_fr (a : l4) : l4 := fto_mont_form fq (montgomery_reduce fr a).

(** fq.rs:121-133 [Fq::sqrt]. *)
Definition fq_sqrt (a : l4) : option l4 :=
  let s := pow_vartime fq a
    (L4 0x4f082305b61f3f52 0x65e05aa45a1c72a3 0x6e14116da0605617 0x0c19139cb84c680a) in
  if eqb4 (fsquare fq s) a then Some s else None.

(** fq.rs:135-156 [lexicographically_largest]. *)
Definition lexicographically_largest (a : l4) : bool :=
  let t := montgomery_reduce fq a in
  let (_, brw) := sbb (w0 t) 0x9e10460b6c3e7ea4 0 in
  let (_, brw) := sbb (w1 t) 0xcbc0b548b438e546 brw in
  let (_, brw) := sbb (w2 t) 0xdc2822db40c0ac2e brw in
  let (_, brw) := sbb (w3 t) 0x183227397098d014 brw in
  brw mod 2 =? 0.

(** fr.rs:165-208 [Fr::sqrt].  The loop bodies, generic in the operations so that the
    same text is run on limbs (below) and reasoned about in a field. *)
Section Tonelli.
Context {A : Type} (amul : A -> A -> A) (asq : A -> A) (aone : A) (aeqb : A -> A -> bool).

(** fr.rs:183-193, inner loop: [js] is the list [2..max_v]; the state is
    [(k, b2k, j_less_than_v, z)]. *)
Fixpoint ts_inner (js : list Z) (v : Z) (st : Z * A * bool * A) : Z * A * bool * A :=
  match js with
  | [] => st
  | j :: js' =>
      let '(k, b2k, jlt, z) := st in
      let jlt := jlt && negb (j =? v) in
      if aeqb b2k aone
      then ts_inner js' v (k, b2k, jlt, if jlt then asq z else z)
      else ts_inner js' v (j, asq b2k, jlt, z)
  end.
(** [2..max_v]. *)
Definition range2 (max_v : nat) : list Z := map Z.of_nat (seq 2 (max_v - 2)).
(** fr.rs:178-201, outer loop for [max_v = n, n-1, .., 1]; state [(v, x, b, z)]. *)
Fixpoint ts_outer (max_v : nat) (st : Z * A * A * A) : Z * A * A * A :=
  match max_v with
  | O => st
  | S n =>
      let '(v, x, b, z) := st in
      let '(k, _, _, z) := ts_inner (range2 max_v) v (1, asq b, true, z) in
      let x := if negb (aeqb b aone) then amul x z else x in
      let z := asq z in
      ts_outer n (k, x, amul b z, z)
  end.
End Tonelli.

Definition fr_sqrt (a : l4) : option l4 :=
  let w := pow_vartime fr a
    (L4 0xcdcb848a1f0fac9f 0x0c0ac2e9419f4243 0x098d014dc2822db4 0x0000000183227397) in
  let x := fmul fr w a in
  let b := fmul fr x w in
  let '(_, x, _, _) :=
    ts_outer (fmul fr) (fsquare fr) (fone fr) (feqb) 28 (fr_S, x, b, fr_root_of_unity) in
  if eqb4 (fsquare fr x) a then Some x else None.
