(** nova/src, the native side: driver.rs, pedersen.rs, hash.rs, relaxed_r1cs.rs and its submodules,
    prover.rs, verifier.rs, and the number conversions of gadget/big_nat.rs.
    Field elements are exact.  Curve points are elements of a commutative group with coordinate
    functions ([into()] between affine and projective form is the identity here; WeierModel.v models
    the representations).  [None] is a panic. *)
From Coq Require Import ZArith List Bool.
From Verif Require Import Algebra GroupLib R1csModel.
Import ListNotations.
Local Open Scope fld_scope.

(** A prime field with the functions this crate calls: [to_bits] (256 digits, most significant first),
    the integer behind [to_raw_bytes] and [from_bytes_wide] / [From<u64>] (FieldModel.v), [pow_of_2],
    [MODULUS], the driver's [NUM_BITS], and the round constants of [Mimc::default] (hash.rs:19-31,
    digests of an external hash function). *)
Record pfield := mkPf {
  pf :> Fld; pf_bits : pf -> list bool; pf_val : pf -> Z; pf_of : Z -> pf;
  pf_pow2 : nat -> pf; pf_modulus : pf; pf_nbits : nat; pf_consts : list pf }.
(** [CircuitDriver] (driver.rs:6-42): the curve over [B] with scalars [S]; [d_order] is [ORDER_STR] and
    [d_b3] is [b3()] of the driver whose circuits are over [B]. *)
Record driver (B S : pfield) := mkDriver {
  d_pt : AbGrp; d_eqb : d_pt -> d_pt -> bool; d_mul : d_pt -> S -> d_pt;
  d_x : d_pt -> B; d_y : d_pt -> B; d_inf : d_pt -> bool; d_order : Z; d_b3 : B }.
Arguments d_pt {B S}. Arguments d_eqb {B S}. Arguments d_mul {B S}. Arguments d_x {B S}. Arguments d_y {B S}. Arguments d_inf {B S}.
Arguments d_order {B S}. Arguments d_b3 {B S}.

(** ** big_nat.rs: numbers and field elements *)
(** Bits of the magnitude ([BigInt::bits]) and bytes of the two's complement form ([to_signed_bytes_le]). *)
Definition bit_count (n : Z) : Z := if (n =? 0)%Z then 0 else Z.log2 (Z.abs n) + 1.
Definition signed_len (n : Z) : Z := (bit_count (if n <? 0 then - n - 1 else n) / 8 + 1)%Z.
(** big_nat.rs:16-28 [nat_to_f]; a negative number is not sign-extended. *)
Definition nat_to_f (F : pfield) (n : Z) : option F :=
  let len := signed_len n in
  if (64 <? len)%Z then None else Some (pf_of F (n mod 2 ^ (8 * len))).
(** big_nat.rs:47-52 [int_with_n_ones]. *)
Definition int_with_n_ones (n : nat) : Z := (2 ^ Z.of_nat n - 1)%Z.
(** big_nat.rs:30-45 [nat_to_limbs]. *)
Fixpoint limbs_loop (F : pfield) (num : Z) (limb_width n_limbs : nat) : option (list F) :=
  match n_limbs with
  | O => Some []
  | S n => match nat_to_f F (Z.land num (int_with_n_ones limb_width)), limbs_loop F (Z.shiftr num (Z.of_nat limb_width)) limb_width n with
           | Some l, Some r => Some (l :: r)
           | _, _ => None
           end
  end.
Definition nat_to_limbs (F : pfield) (num : Z) (limb_width n_limbs : nat) : option (list F) :=
  if (bit_count num <=? Z.of_nat n_limbs * Z.of_nat limb_width)%Z then limbs_loop F num limb_width n_limbs else None.
(** big_nat.rs:54-66 [limbs_to_nat]. *)
Definition limbs_to_nat (F : pfield) (limbs : list F) (limb_width : nat) : Z :=
  fold_left (fun acc limb => (acc * 2 ^ Z.of_nat limb_width + pf_val F limb)%Z) (rev limbs) 0%Z.
(** big_nat.rs:8-9. *)
Definition BN_LIMB_WIDTH : nat := 64.
Definition BN_N_LIMBS : nat := 4.

(** ** driver.rs *)
(** The loop over bits, least significant first (driver.rs:48-56, 62-70, hash.rs:92-100). *)
Fixpoint bits_loop {F : Fld} (bits : list bool) (mult val : F) : F :=
  match bits with [] => val | b :: l => bits_loop l (mult + mult) (if b then val + mult else val) end.
(** driver.rs:45-57 [scalar_as_base], 60-71 [base_as_scalar]: one function between two fields. *)
Definition transfer (A B : pfield) (input : A) : B := bits_loop (rev (pf_bits A input)) 1 0.

(** ** hash.rs *)
(** hash.rs:9-13. *)
Definition CHALLENGE_BITS : nat := 128.
Definition HASH_BITS : nat := 252.
(** hash.rs:34-48 [Mimc::hash]. *)
Definition mimc_round {F : Fld} (st : F * F) (c : F) : F * F :=
  let '(xl, xr) := st in
  let cxl := xl + c in
  let ccxl := cxl * cxl in
  let cccxl := ccxl * ccxl in
  (ccxl * cccxl * cxl + xr, xl).
Definition mimc_hash {F : Fld} (constants : list F) (xl xr : F) : F := fst (fold_left mimc_round constants (xl, xr)).
(** hash.rs:88-91: the fold of [squeeze]. *)
Definition mimc_absorb {F : Fld} (constants : list F) (state : list F) : F :=
  fold_left (fun acc scalar => acc + scalar + mimc_hash constants scalar acc) state 0.
(** hash.rs:87-103 [squeeze]; the transcript is the list of absorbed elements. *)
Definition squeeze (B S : pfield) (state : list B) (num_bits : nat) : S :=
  bits_loop (firstn num_bits (rev (pf_bits B (mimc_absorb (pf_consts B) state)))) 1 0.

(** ** Vectors (zkstd/src/matrix/vector.rs:73-128) *)
Definition vscale {F : Fld} (v : list F) (r : F) : list F := map (fun e => e * r) v.
Definition vadd {F : Fld} (a b : list F) : option (list F) :=
  if Nat.eqb (length a) (length b) then Some (map (fun '(a, b) => a + b) (combine a b)) else None.
Definition vsub {F : Fld} (a b : list F) : option (list F) :=
  if Nat.eqb (length a) (length b) then Some (map (fun '(a, b) => a - b) (combine a b)) else None.

(** ** relaxed_r1cs.rs *)
(** relaxed_r1cs.rs:11-22 [R1csShape]. *)
Record shape (S : Fld) := mkShape { sh_m : nat; sh_l : nat; sh_w : nat; sh_a : list (row S); sh_b : list (row S); sh_c : list (row S) }.
Arguments mkShape {S}. Arguments sh_m {S}. Arguments sh_l {S}. Arguments sh_w {S}. Arguments sh_a {S}. Arguments sh_b {S}. Arguments sh_c {S}.
(** relaxed_r1cs.rs:42-54 [From<R1cs>]. *)
Definition shape_of {S : Fld} (cs : r1cs S) : shape S :=
  mkShape (r_m cs) (length (r_x cs) - 1) (length (r_w cs)) (r_a cs) (r_b cs) (r_c cs).
(** The products with one assembled vector, as [is_sat_relaxed], [is_sat] and [compute_cross_term] form them. *)
Definition prods {S : Fld} (sh : shape S) (u : S) (x w : list S) : option (list S * list S * list S) :=
  let l := (length x + 1)%nat in
  let z := u :: x ++ w in
  match matrix_prod S (sh_a sh) (sh_m sh) l z, matrix_prod S (sh_b sh) (sh_m sh) l z, matrix_prod S (sh_c sh) (sh_m sh) l z with
  | Some az, Some bz, Some cz => Some (az, bz, cz)
  | _, _, _ => None
  end.
Definition all_eq {S : Fld} (l r : list S) : bool := forallb (fun '(a, b) => keqb a b) (combine l r).

Section Nova.
Variables (B S : pfield) (C : driver B S).
Notation pt := (d_pt C).
Local Infix "+!" := aadd (at level 50, left associativity).

(** ** pedersen.rs *)
(** pedersen.rs:15-20 [commit]. *)
Definition commit (g : list pt) (m : list S) : pt :=
  fold_left (fun sum '(v, e) => sum +! d_mul C e v) (combine m g) a0.

(** instance.rs:9-16 [R1csInstance], 38-48 [RelaxedR1csInstance]; witness.rs:6-10, 29-36. *)
Record inst := mkInst { i_w : pt; i_x : list S }.
Record rinst := mkRinst { ri_w : pt; ri_e : pt; ri_u : S; ri_x : list S }.
Record rwit := mkRwit { rw_w : list S; rw_e : list S }.
(** instance.rs:18-24 [R1csInstance::new]; witness.rs:13-18 [R1csWitness::new]; relaxed_r1cs.rs:24-40 [r1cs_instance_and_witness]. *)
Definition r1cs_instance_and_witness (cs : r1cs S) (sh : shape S) (g : list pt) : option (inst * list S) :=
  if negb (Nat.eqb (length (r_w cs)) (sh_w sh)) then None
  else if negb (Nat.eqb (r_m cs) (sh_m sh)) then None
  else match r_x cs with
       | [] => None
       | _ :: x => if negb (Nat.eqb (length x) (sh_l sh)) then None else Some (mkInst (commit g (r_w cs)) x, r_w cs)
       end.
(** instance.rs:26-31 [dummy], 64-71 [dummy], 52-62 [from_r1cs_instance]. *)
Definition inst_dummy (x_len : nat) : inst := mkInst a0 (repeat 0 x_len).
Definition rinst_dummy (x_len : nat) : rinst := mkRinst a0 a0 0 (repeat 0 x_len).
Definition from_r1cs_instance (i : inst) : rinst := mkRinst (i_w i) a0 1 (i_x i).
(** witness.rs:38-43 [from_r1cs_witness], 49-54 [dummy]. *)
Definition from_r1cs_witness (sh : shape S) (w : list S) : rwit := mkRwit w (repeat 0 (sh_m sh)).
Definition rwit_dummy (w_len m : nat) : rwit := mkRwit (repeat 0 w_len) (repeat 0 m).
(** relaxed_r1cs.rs:81-114 [is_sat_relaxed]. *)
Definition is_sat_relaxed (sh : shape S) (i : rinst) (w : rwit) : option bool :=
  match prods sh (ri_u i) (ri_x i) (rw_w w) with
  | Some (az, bz, cz) =>
      match hadamard S az bz, vadd (vscale cz (ri_u i)) (rw_e w) with
      | Some azbz, Some ucze => Some (all_eq azbz ucze)
      | _, _ => None
      end
  | None => None
  end.
(** relaxed_r1cs.rs:117-146 [is_sat]. *)
Definition is_sat_single (sh : shape S) (g : list pt) (i : inst) (w : list S) : option bool :=
  match prods sh 1 (i_x i) w with
  | Some (az, bz, cz) =>
      match hadamard S az bz with
      | Some azbz => Some (all_eq azbz cz && d_eqb C (i_w i) (commit g w))
      | None => None
      end
  | None => None
  end.
(** instance.rs:81-101 [fold]. *)
Definition fold_inst (i1 : rinst) (i2 : inst) (r : S) (commit_t : pt) : option rinst :=
  match vadd (ri_x i1) (vscale (i_x i2) r) with
  | Some x => Some (mkRinst (ri_w i1 +! d_mul C (i_w i2) r) (ri_e i1 +! d_mul C commit_t r) (ri_u i1 + r) x)
  | None => None
  end.
(** witness.rs:56-71 [fold]. *)
Definition fold_wit (w1 : rwit) (w2 : list S) (r : S) (t : list S) : option rwit :=
  match vadd (rw_e w1) (vscale t r), vadd (rw_w w1) (vscale w2 r) with
  | Some e, Some w => Some (mkRwit w e)
  | _, _ => None
  end.
(** hash.rs:71-79 [append_point]. *)
Definition point_elems (p : pt) : list B := [d_x C p; d_y C p; if d_inf C p then 0 else 1].
(** instance.rs:103-116 [absorb_by_transcript]: what is appended. *)
Definition absorb_limbs (xs : list S) : option (list B) :=
  fold_right (fun x acc => match nat_to_limbs S (pf_val S x) BN_LIMB_WIDTH BN_N_LIMBS, acc with
                           | Some limbs, Some r => Some (map (transfer S B) limbs ++ r)
                           | _, _ => None
                           end) (Some []) xs.
Definition absorb (i : rinst) : option (list B) :=
  match absorb_limbs (ri_x i) with
  | Some ls => Some (point_elems (ri_w i) ++ point_elems (ri_e i) ++ [transfer S B (ri_u i)] ++ ls)
  | None => None
  end.
(** instance.rs:118-131 [hash]. *)
Definition rinst_hash (i : rinst) (step : Z) (z_0 z_i : list B) : option S :=
  match absorb i with
  | Some st => Some (squeeze B S ([pf_of B step] ++ z_0 ++ z_i ++ st) HASH_BITS)
  | None => None
  end.
(** prover.rs:31-40, verifier.rs:16-23: the challenge. *)
Definition challenge (commit_t : pt) (i1 : rinst) : option S :=
  match absorb i1 with
  | Some st => Some (squeeze B S (point_elems commit_t ++ st) CHALLENGE_BITS)
  | None => None
  end.
(** prover.rs:52-90 [compute_cross_term]. *)
Definition compute_cross_term (sh : shape S) (i1 : rinst) (w1 : rwit) (i2 : inst) (w2 : list S) : option (list S) :=
  match prods sh (ri_u i1) (ri_x i1) (rw_w w1), prods sh 1 (i_x i2) w2 with
  | Some (az1, bz1, cz1), Some (az2, bz2, cz2) =>
      match hadamard S az2 bz1, hadamard S az1 bz2 with
      | Some az2bz1, Some az1bz2 =>
          match vadd az2bz1 az1bz2 with
          | Some s => match vsub s (vscale cz2 (ri_u i1)) with Some d => vsub d (vscale cz1 1) | None => None end
          | None => None
          end
      | _, _ => None
      end
  | _, _ => None
  end.
(** prover.rs:24-50 [prove]. *)
Definition fold_prove (sh : shape S) (g : list pt) (i1 : rinst) (w1 : rwit) (i2 : inst) (w2 : list S) : option (rinst * rwit * pt) :=
  match compute_cross_term sh i1 w1 i2 w2 with
  | None => None
  | Some t =>
      let commit_t := commit g t in
      match challenge commit_t i1 with
      | None => None
      | Some r => match fold_inst i1 i2 r commit_t, fold_wit w1 w2 r t with
                  | Some i, Some w => Some (i, w, commit_t)
                  | _, _ => None
                  end
      end
  end.
(** verifier.rs:11-25 [verify]. *)
Definition fold_verify (commit_t : pt) (i1 : rinst) (i2 : inst) : option rinst :=
  match challenge commit_t i1 with
  | Some r => fold_inst i1 i2 r commit_t
  | None => None
  end.
End Nova.
Arguments commit {B S}. Arguments mkInst {B S C}. Arguments i_w {B S C}. Arguments i_x {B S C}.
Arguments mkRinst {B S C}. Arguments ri_w {B S C}. Arguments ri_e {B S C}. Arguments ri_u {B S C}. Arguments ri_x {B S C}.
Arguments mkRwit {S}. Arguments rw_w {S}. Arguments rw_e {S}.
Arguments r1cs_instance_and_witness {B S}. Arguments inst_dummy {B S}. Arguments rinst_dummy {B S}. Arguments from_r1cs_instance {B S C}.
Arguments from_r1cs_witness {S}. Arguments rwit_dummy {S}. Arguments is_sat_relaxed {B S C}. Arguments is_sat_single {B S C}.
Arguments fold_inst {B S C}. Arguments fold_wit {S}. Arguments point_elems {B S}. Arguments absorb {B S C}. Arguments absorb_limbs B S : clear implicits.
Arguments rinst_hash {B S C}. Arguments challenge {B S C}. Arguments compute_cross_term {B S C}. Arguments fold_prove {B S C}. Arguments fold_verify {B S C}.
Arguments inst {B S}. Arguments rinst {B S}.
