(** nova/src/gadget/big_nat.rs: numbers of several limbs inside circuits (the conversions
    between numbers, limbs and field elements are in NovaModel.v).
    Lengths, widths and counts are [usize] in the code and natural numbers here: they are tiny, and
    an underflowing subtraction is a panic ([None]), as in a checked build. *)
From Coq Require Import ZArith List Bool.
From Verif Require Import Algebra R1csModel NovaModel.
Import ListNotations.
Local Open Scope fld_scope.
Notation "'do' x <- g ; k" := (bind g (fun x => k)) (at level 200, x name, g at level 100, k at level 200).
Notation "'run' g ; k" := (bind g (fun _ => k)) (at level 200, g at level 100, k at level 200).

(** ** Floating point (big_nat.rs:215-217, 235-237) *)
(** [BigInt::to_f64] of a non-negative number: the nearest number of 53 significant bits, ties to even. *)
Definition round53 (n : Z) : Z :=
  let e := (bit_count n - 53)%Z in
  if (e <=? 0)%Z then n
  else
    let q := (n / 2 ^ e)%Z in
    let r := (n mod 2 ^ e)%Z in
    let up := orb (2 ^ (e - 1) <? r)%Z (andb (r =? 2 ^ (e - 1))%Z (Z.odd q)) in
    ((if up then q + 1 else q) * 2 ^ e)%Z.
(** [((max_word.to_f64() * 2.0).log2() - limb_width as f64).ceil() + 0.1) as usize].  Simplified: the
    logarithm is exact, where the code has the nearest [f64] to it. *)
Definition carry_bits_of (max_word : Z) (limb_width : nat) : nat :=
  Z.to_nat (Z.log2_up (2 * round53 max_word) - Z.of_nat limb_width).

Section BigNat.
Variable F : pfield.
Notation row := (row F).
Notation to_bits := (fa_to_bits F (pf_bits F) (pf_pow2 F) (pf_modulus F) (pf_nbits F)).
Notation range_check_bits := (fa_range_check_bits F (pf_bits F) (pf_pow2 F)).

(** big_nat.rs:68-81 [BigNatAssignment], [BigNatParams]; limbs least significant first. *)
Record bignat := mkBn { bn_limbs : list row; bn_min_bits : nat; bn_max_word : Z; bn_width : nat; bn_n : nat }.
Definition lift {A} (o : option A) : G F A := fun cs => match o with Some a => Some (a, cs) | None => None end.
Definition guard (b : bool) : G F unit := if b then ret tt else panic.
(** [nat_to_f] as a witness. *)
Definition nat_witness (n : Z) : G F row := do v <- lift (nat_to_f F n); fa_witness F v.

(** big_nat.rs:83-92 [BigNatParams::new]; 95-111 [witness_from_big_int]. *)
Definition bn_witness (num : Z) (limb_width n_limbs : nat) : G F bignat :=
  do values <- lift (nat_to_limbs F num limb_width n_limbs);
  do limbs <- for_each (fa_witness F) values;
  ret (mkBn limbs 0 (2 ^ Z.of_nat limb_width - 1) limb_width n_limbs).
(** big_nat.rs:163-181 [decompose]. *)
Definition bn_decompose (a : bignat) : G F (list wire) :=
  do bvs <- for_each (fun limb => to_bits limb (bn_width a)) (rev (bn_limbs a));
  ret (concat bvs).
(** big_nat.rs:113-131 [witness_from_field_assignment]. *)
Definition bn_from_field (f : row) (limb_width n_limbs : nat) : G F bignat :=
  do v <- value_of f;
  do a <- bn_witness (pf_val F v) limb_width n_limbs;
  do bv <- bn_decompose a;
  run fa_enforce_eq_bits F f bv;
  ret a.
(** big_nat.rs:133-143 [from_poly]; 159-161 [as_limbs] is [bn_limbs]. *)
Definition bn_from_poly (poly : list row) (limb_width : nat) (max_word : Z) : bignat := mkBn poly 0 max_word limb_width (length poly).
(** big_nat.rs:145-150 [enforce_well_formed]. *)
Definition bn_enforce_well_formed (a : bignat) : G F unit :=
  run for_each (fun limb => do bs <- to_bits limb 256; range_check_bits bs (bn_width a)) (bn_limbs a);
  ret tt.
(** big_nat.rs:152-157 [value]. *)
Definition bn_value (a : bignat) : G F Z :=
  do vs <- for_each value_of (bn_limbs a);
  ret (limbs_to_nat F vs (bn_width a)).
(** big_nat.rs:183-188 [enforce_eq]. *)
Definition bn_enforce_eq (x y : bignat) : G F unit :=
  run guard (Nat.eqb (length (bn_limbs x)) (length (bn_limbs y)));
  run for_each (fun '(x, y) => fa_enforce_eq F x y) (combine (bn_limbs x) (bn_limbs y));
  ret tt.
(** big_nat.rs:190-206 [conditional_select]. *)
Definition bn_conditional_select (a b : bignat) (condition : wire) : G F bignat :=
  run guard (Nat.eqb (length (bn_limbs a)) (length (bn_limbs b)));
  do limbs <- for_each (fun '(x, y) => fa_conditional_select F x y condition) (combine (bn_limbs a) (bn_limbs b));
  ret (mkBn limbs (bn_min_bits a) (bn_max_word a) (bn_width a) (bn_n a)).

(** big_nat.rs:240-280: one iteration, the limbs [x] and [y] of the two sides; [last] is [i = n - 1]. *)
Definition carry_step (max_word target_base : Z) (carry_bits : nat) (last : bool) (carry_in x y : row) (extra : Z) : G F (row * Z) :=
  do xv <- value_of x;
  do cv <- value_of carry_in;
  do yv <- value_of y;
  do carry <- nat_witness (Z.quot (pf_val F xv + pf_val F cv + max_word - pf_val F yv) target_base);
  let extra := (extra + max_word)%Z in
  do base <- nat_witness target_base;
  do target <- fa_mul F base carry;
  let carry_sum := fa_minus F (fa_plus F carry_in x) y in
  do accumulated <- nat_witness (Z.rem extra target_base);
  do mw <- nat_witness max_word;
  run fa_enforce_eq_constant F (fa_minus F (fa_minus F (fa_plus F carry_sum mw) target) accumulated) 0;
  let extra := Z.quot extra target_base in
  run (if last then
         do e <- nat_witness extra;
         fa_enforce_eq_constant F (fa_minus F carry e) 0
       else
         do bs <- to_bits carry 256;
         range_check_bits bs carry_bits);
  ret (carry, extra).
Fixpoint carry_loop (max_word target_base : Z) (carry_bits : nat) (carry_in : row) (extra : Z) (xys : list (row * row)) : G F unit :=
  match xys with
  | [] => ret tt
  | (x, y) :: rest =>
      do st <- carry_step max_word target_base carry_bits (match rest with [] => true | _ => false end) carry_in x y extra;
      carry_loop max_word target_base carry_bits (fst st) (snd st) rest
  end.
(** big_nat.rs:224-289 [enforce_equal_when_carried]. *)
Definition bn_equal_when_carried (a b : bignat) : G F unit :=
  run guard (Nat.eqb (bn_width a) (bn_width b));
  let n := Nat.min (length (bn_limbs a)) (length (bn_limbs b)) in
  let max_word := Z.max (bn_max_word a) (bn_max_word b) in
  run carry_loop max_word (2 ^ Z.of_nat (bn_width a)) (carry_bits_of max_word (bn_width a)) (fa_constant F 0) 0 (combine (bn_limbs a) (bn_limbs b));
  run for_each (fun limb => fa_enforce_eq_constant F limb 0) (skipn n (bn_limbs a));
  run for_each (fun limb => fa_enforce_eq_constant F limb 0) (skipn n (bn_limbs b));
  ret tt.

(** [v[i] = v[i] + r]. *)
Fixpoint add_at (v : list row) (i : nat) (r : row) : list row :=
  match v, i with
  | [], _ => []
  | x :: v, O => fa_plus F x r :: v
  | x :: v, S i => x :: add_at v i r
  end.
(** big_nat.rs:412-444 [group_limbs]. *)
Definition group_step (lpg : nat) (limb_block : row) (st : list row * row) (il : nat * row) : G F (list row * row) :=
  let '(limbs, shift) := st in
  let '(i, limb) := il in
  let shift := if Nat.eqb (i mod lpg) 0 then fa_constant F 1 else shift in
  do t <- fa_mul F shift limb;
  let limbs := add_at limbs (i / lpg) t in
  do shift <- fa_mul F shift limb_block;
  ret (limbs, shift).
Definition bn_group_limbs (a : bignat) (lpg : nat) : G F bignat :=
  run guard (negb (Nat.eqb (length (bn_limbs a)) 0) && negb (Nat.eqb lpg 0));
  let n_groups := ((length (bn_limbs a) - 1) / lpg + 1)%nat in
  do limb_block <- fa_witness F (pf_pow2 F (bn_width a));
  do st <- fold_g (group_step lpg limb_block) (repeat (fa_constant F 0) n_groups, fa_constant F 1) (combine (seq 0 (length (bn_limbs a))) (bn_limbs a));
  let max_word := (fold_left (fun acc i => Z.setbit acc (Z.of_nat (i * bn_width a))) (seq 0 lpg) 0 * bn_max_word a)%Z in
  ret (mkBn (fst st) (bn_min_bits a) max_word (bn_width a * lpg) n_groups).
(** big_nat.rs:208-222 [enforce_equal_when_carried_regroup]. *)
Definition bn_equal_regroup (a b : bignat) : G F unit :=
  run guard (Nat.eqb (bn_width a) (bn_width b));
  let max_word := Z.max (bn_max_word a) (bn_max_word b) in
  let carry_bits := carry_bits_of max_word (bn_width a) in
  run guard (Nat.leb carry_bits (pf_nbits F - 1) && negb (Nat.eqb (bn_width a) 0));
  let lpg := ((pf_nbits F - 1 - carry_bits) / bn_width a)%nat in
  do ag <- bn_group_limbs a lpg;
  do bg <- bn_group_limbs b lpg;
  bn_equal_when_carried ag bg.

(** ** Polynomials over limbs *)
(** big_nat.rs:463-468: the schoolbook product. *)
Definition poly_products (a b : list row) : G F (list row) :=
  fold_g (fun product '(i, x) =>
      fold_g (fun product '(j, y) => do m <- fa_mul F x y; ret (add_at product (i + j) m)) product (combine (seq 0 (length b)) b))
    (repeat (fa_constant F 0) (length a + length b - 1)) (combine (seq 0 (length a)) a).
(** big_nat.rs:474-500: a polynomial at the point [x]. *)
Definition poly_eval (coeffs : list row) (x : F) : G F row :=
  do r <- fold_g (fun '(acc, i) c => do m <- fa_mul F c (fa_constant F i); ret (fa_plus F acc m, i * x)) (fa_constant F 0, 1) coeffs;
  ret (fst r).
(** big_nat.rs:456-508 [Polynomial::mul]. *)
Fixpoint poly_checks (a b product : list row) (x : F) (n : nat) : G F unit :=
  match n with
  | O => ret tt
  | S n =>
      let x := x + 1 in
      do av <- poly_eval a x;
      do bv <- poly_eval b x;
      do cv <- poly_eval product x;
      do ab <- fa_mul F av bv;
      run fa_enforce_eq F ab cv;
      poly_checks a b product x n
  end.
Definition poly_mul (a b : list row) : G F (list row) :=
  run guard (negb (Nat.eqb (length a + length b) 0));
  do product <- poly_products a b;
  run poly_checks a b product 0 (length a + length b - 1);
  ret product.
(** big_nat.rs:509-525 [Polynomial::add]. *)
Definition poly_add (a b : list row) : list row :=
  map (fun i =>
         let s := fa_constant F 0 in
         let s := match nth_error a i with Some x => fa_plus F s x | None => s end in
         match nth_error b i with Some x => fa_plus F s x | None => s end) (seq 0 (Nat.max (length a) (length b))).

(** big_nat.rs:446-448 [n_bits]. *)
Definition bn_n_bits (a : bignat) : nat := (BN_LIMB_WIDTH * (BN_N_LIMBS - 1) + Z.to_nat (bit_count (bn_max_word a)))%nat.
(** big_nat.rs:348-369 [add]. *)
Definition bn_add (a b : bignat) : option bignat :=
  if negb (Nat.eqb (bn_width a) (bn_width b)) then None
  else
    let n := Nat.max (bn_n a) (bn_n b) in
    let limb i := match nth_error (bn_limbs a) i, nth_error (bn_limbs b) i with
                  | Some x, Some y => Some (fa_plus F x y)
                  | Some x, None => Some x
                  | None, Some y => Some y
                  | None, None => None
                  end in
    match fold_right (fun i acc => match limb i, acc with Some l, Some r => Some (l :: r) | _, _ => None end) (Some []) (seq 0 n) with
    | Some limbs => Some (mkBn limbs (Nat.max (bn_min_bits a) (bn_min_bits b)) (bn_max_word a + bn_max_word b) (bn_width a) n)
    | None => None
    end.
(** The quotient and remainder both reductions allocate (big_nat.rs:299-315, 374-389). *)
Definition bn_div_witness (num : G F Z) (num_bits limb_width : nat) (modulus : bignat) : G F (bignat * bignat) :=
  run guard (negb (Nat.eqb limb_width 0));
  let quotient_limbs := ((num_bits - bn_min_bits modulus - 1) / limb_width + 1)%nat in
  do n <- num;
  do m <- bn_value modulus;
  run guard (negb (m =? 0)%Z);
  do quotient <- bn_witness (Z.quot n m) limb_width quotient_limbs;
  run bn_enforce_well_formed quotient;
  do n <- num;
  do m <- bn_value modulus;
  do remainder <- bn_witness (Z.rem n m) limb_width (length (bn_limbs modulus));
  run bn_enforce_well_formed remainder;
  ret (quotient, remainder).
(** big_nat.rs:322-326, 334-340, 343: [q * m + r]. *)
Definition bn_recompose (quotient modulus remainder : bignat) (limb_width : nat) : G F bignat :=
  do right_product <- poly_mul (bn_limbs quotient) (bn_limbs modulus);
  let right := poly_add right_product (bn_limbs remainder) in
  let right_max_word := (Z.of_nat (Nat.min (length (bn_limbs quotient)) (length (bn_limbs modulus))) * bn_max_word quotient * bn_max_word modulus + bn_max_word remainder)%Z in
  ret (bn_from_poly right limb_width right_max_word).
(** big_nat.rs:291-346 [mult_mod]. *)
Definition bn_mult_mod (a b modulus : bignat) : G F bignat :=
  run guard (Nat.eqb (bn_width a) (bn_width b));
  do qr <- bn_div_witness (do u <- bn_value a; do v <- bn_value b; ret (u * v)%Z) (bn_n_bits a + bn_n_bits b) (bn_width a) modulus;
  do left <- poly_mul (bn_limbs a) (bn_limbs b);
  do right <- bn_recompose (fst qr) modulus (snd qr) (bn_width a);
  let left_max_word := (Z.of_nat (Nat.min (length (bn_limbs a)) (length (bn_limbs b))) * bn_max_word a * bn_max_word b)%Z in
  run bn_equal_regroup (bn_from_poly left (bn_width a) left_max_word) right;
  ret (snd qr).
(** big_nat.rs:371-410 [red_mod]. *)
Definition bn_red_mod (a modulus : bignat) : G F bignat :=
  run guard (Nat.eqb (bn_width a) (bn_width modulus));
  do qr <- bn_div_witness (bn_value a) (bn_n_bits a) (bn_width a) modulus;
  do right <- bn_recompose (fst qr) modulus (snd qr) (bn_width a);
  run bn_equal_regroup a right;
  ret (snd qr).
End BigNat.
Arguments mkBn {F}. Arguments bn_limbs {F}. Arguments bn_min_bits {F}. Arguments bn_max_word {F}. Arguments bn_width {F}. Arguments bn_n {F}.
