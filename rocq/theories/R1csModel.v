(** zkstd/src/matrix.rs, matrix/row.rs, matrix/vector.rs, r1cs.rs, r1cs/wire.rs and the gadgets of
    zkstd/src/circuit/gadget: rank-one constraint systems under construction.
    Indices and lengths are natural numbers.  A gadget takes the constraint system and returns its
    result with the new one; [None] is a panic (an index out of bounds, a failed assertion). *)
From Coq Require Import ZArith List Bool.
From Verif Require Import Algebra WeierModel.
Import ListNotations.
Local Open Scope fld_scope.

(** wire.rs:7-11 [Wire], 13-15 [ONE]. *)
Inductive wire : Type := Inst (i : nat) | Wit (i : nat).
Definition ONE : wire := Inst 0.
(** The derived equality of wire.rs:7. *)
Definition wire_eqb (a b : wire) : bool :=
  match a, b with Inst i, Inst j => Nat.eqb i j | Wit i, Wit j => Nat.eqb i j | _, _ => false end.
(** wire.rs:17-29 [Ord::cmp]. *)
Definition wire_cmp (a b : wire) : comparison :=
  let lhs := match a with Inst i => i | Wit i => i end in
  let rhs := match b with Inst i => i | Wit i => i end in
  Nat.compare lhs rhs.

Section R1cs.
Variable F : Fld.

(** ** Rows (row.rs) *)
(** row.rs:8-9 [SparseRow]. *)
Definition row : Type := list (wire * F).
(** row.rs:13-20 [new]. *)
Definition row_new (l : row) : row := filter (fun e => negb (kis0 (snd e))) l.
(** row.rs:53-69 [From<Wire>], [From<&Wire>], [From<F>], 26-28 [one]. *)
Definition row_wire (w : wire) : row := row_new [(w, 1)].
Definition row_const (c : F) : row := row_new [(ONE, c)].
Definition row_one : row := row_const 1.
(** row.rs:194-202 [get_value_from_wire]. *)
Fixpoint get_value_from_wire (index : wire) (l : row) : option F :=
  match l with [] => None | (w, v) :: l => if wire_eqb index w then Some v else get_value_from_wire index l end.
(** row.rs:35-41 [as_constant]. *)
Definition as_constant (r : row) : option F :=
  if Nat.eqb (length r) 1 then get_value_from_wire ONE r else None.
(** Indexing the instance or the witness vector. *)
Definition wire_value (x w : list F) (i : wire) : option F :=
  match i with Inst i => nth_error x i | Wit i => nth_error w i end.
(** row.rs:43-51 [evaluate]. *)
Definition row_evaluate (r : row) (x w : list F) : option F :=
  fold_left (fun acc e => match acc, wire_value x w (fst e) with
                          | Some s, Some v => Some (s + v * snd e)
                          | _, _ => None
                          end) r (Some 0).
(** row.rs:95-113 [Add]; the other three [Add] forward to it (71-93). *)
Definition row_add (l r : row) : row :=
  row_new (filter (fun e => match get_value_from_wire (fst e) r with None => true | Some _ => false end) l ++
           map (fun e => match get_value_from_wire (fst e) l with
                         | Some a => (fst e, a + snd e)
                         | None => e
                         end) r).
(** row.rs:185-192 [Mul<&F>]. *)
Definition row_scale (r : row) (c : F) : row := row_new (map (fun e => (fst e, snd e * c)) r).
(** row.rs:147-161 [Neg], 115-145 [Sub]. *)
Definition row_neg (r : row) : row := row_scale r (- (1)).
Definition row_sub (l r : row) : row := row_add l (row_neg r).

(** ** Matrices (matrix.rs) *)
(** matrix.rs:34-48 [prod]; [None] = an index out of bounds. *)
Definition prod_row (l : nat) (z : list F) (r : row) : option F :=
  fold_left (fun acc e => match acc, nth_error z (match fst e with Inst i => i | Wit i => (i + l)%nat end) with
                          | Some s, Some v => Some (s + snd e * v)
                          | _, _ => None
                          end) r (Some 0).
Fixpoint all_some {A} (l : list (option A)) : option (list A) :=
  match l with
  | [] => Some []
  | Some a :: l => match all_some l with Some l => Some (a :: l) | None => None end
  | None :: _ => None
  end.
Definition matrix_prod (mat : list row) (m l : nat) (z : list F) : option (list F) :=
  if Nat.ltb m (length mat) then None
  else match all_some (map (prod_row l z) mat) with
       | Some v => Some (v ++ repeat 0 (m - length mat))
       | None => None
       end.
(** matrix.rs:30-32 [evaluate_with_z]. *)
Definition evaluate_with_z (mat : list row) (x w : list F) : option (list F) :=
  all_some (map (fun r => row_evaluate r x w) mat).
(** matrix.rs:14-28 [x_and_w]: per wire, the coefficients with their row numbers. *)
Fixpoint push_at {A} (l : list (list A)) (k : nat) (v : A) : option (list (list A)) :=
  match l, k with
  | [], _ => None
  | c :: l, O => Some ((c ++ [v]) :: l)
  | c :: l, S k => match push_at l k v with Some l => Some (c :: l) | None => None end
  end.
Fixpoint xw_row (i : nat) (r : row) (x w : list (list (F * nat))) : option (list (list (F * nat)) * list (list (F * nat))) :=
  match r with
  | [] => Some (x, w)
  | (Inst k, c) :: r => match push_at x k (c, i) with Some x => xw_row i r x w | None => None end
  | (Wit k, c) :: r => match push_at w k (c, i) with Some w => xw_row i r x w | None => None end
  end.
Fixpoint xw_rows (i : nat) (mat : list row) (x w : list (list (F * nat))) : option (list (list (F * nat)) * list (list (F * nat))) :=
  match mat with
  | [] => Some (x, w)
  | r :: mat => match xw_row i r x w with Some (x, w) => xw_rows (S i) mat x w | None => None end
  end.
Definition x_and_w (mat : list row) (l m_l_1 : nat) : option (list (list (F * nat)) * list (list (F * nat))) :=
  xw_rows 0 mat (repeat [] l) (repeat [] m_l_1).

(** ** Constraint systems (r1cs.rs) *)
(** r1cs.rs:11-27 [R1cs]. *)
Record r1cs : Type := mkR1cs { r_m : nat; r_a : list row; r_b : list row; r_c : list row; r_x : list F; r_w : list F }.
(** r1cs.rs:169-180 [Default]. *)
Definition r1cs_default : r1cs := mkR1cs 0 [] [] [] [1] [].
(** r1cs.rs:59-76 [is_sat]. *)
Definition hadamard (l r : list F) : option (list F) :=
  if Nat.eqb (length l) (length r) then Some (map (fun '(a, b) => a * b) (combine l r)) else None.
Definition is_sat (cs : r1cs) : option bool :=
  let z := r_x cs ++ r_w cs in
  let l := length (r_x cs) in
  match matrix_prod (r_a cs) (r_m cs) l z, matrix_prod (r_b cs) (r_m cs) l z, matrix_prod (r_c cs) (r_m cs) l z with
  | Some az, Some bz, Some cz =>
      match hadamard az bz with
      | Some azbz => Some (forallb (fun '(l, r) => keqb l r) (combine azbz cz))
      | None => None
      end
  | _, _, _ => None
  end.
(** r1cs.rs:135-141 [evaluate]. *)
Definition evaluate_all (cs : r1cs) : option (list F * list F * list F) :=
  match evaluate_with_z (r_a cs) (r_x cs) (r_w cs), evaluate_with_z (r_b cs) (r_x cs) (r_w cs), evaluate_with_z (r_c cs) (r_x cs) (r_w cs) with
  | Some a, Some b, Some c => Some (a, b, c)
  | _, _, _ => None
  end.
(** r1cs.rs:78-88 [append]. *)
Definition append (cs : r1cs) (a b c : row) : r1cs :=
  mkR1cs (S (r_m cs)) (r_a cs ++ [a]) (r_b cs ++ [b]) (r_c cs ++ [c]) (r_x cs) (r_w cs).
(** r1cs.rs:101-132 [mul_gate], [add_gate], [sub_gate], [equal_gate]. *)
Definition mul_gate (x y z : row) (cs : r1cs) : r1cs := append cs x y z.
Definition add_gate (x y z : row) (cs : r1cs) : r1cs := append cs (row_add x y) (row_wire ONE) z.
Definition sub_gate (x y z : row) (cs : r1cs) : r1cs := append cs (row_sub x y) (row_wire ONE) z.
Definition equal_gate (x y : row) (cs : r1cs) : r1cs := mul_gate x row_one y cs.
(** r1cs.rs:90-98 [public_wire], [private_wire] with the push that follows every use. *)
Definition push_x (v : F) (cs : r1cs) : wire * r1cs :=
  (Inst (length (r_x cs)), mkR1cs (r_m cs) (r_a cs) (r_b cs) (r_c cs) (r_x cs ++ [v]) (r_w cs)).
Definition push_w (v : F) (cs : r1cs) : wire * r1cs :=
  (Wit (length (r_w cs)), mkR1cs (r_m cs) (r_a cs) (r_b cs) (r_c cs) (r_x cs) (r_w cs ++ [v])).

(** ** Gadgets *)
Definition G (A : Type) : Type := r1cs -> option (A * r1cs).
Definition ret {A} (a : A) : G A := fun cs => Some (a, cs).
Definition bind {A B} (g : G A) (k : A -> G B) : G B :=
  fun cs => match g cs with Some (a, cs) => k a cs | None => None end.
Definition panic {A} : G A := fun _ => None.
Notation "'do' x <- g ; k" := (bind g (fun x => k)) (at level 200, x name, g at level 100, k at level 200).
Notation "'run' g ; k" := (bind g (fun _ => k)) (at level 200, g at level 100, k at level 200).
Definition gate (f : r1cs -> r1cs) : G unit := fun cs => Some (tt, f cs).
Definition value_of (r : row) : G F := fun cs => match row_evaluate r (r_x cs) (r_w cs) with Some v => Some (v, cs) | None => None end.
(** r1cs.rs:182-191 [Index<Wire>]. *)
Definition wire_of (w : wire) : G F := fun cs => match wire_value (r_x cs) (r_w cs) w with Some v => Some (v, cs) | None => None end.
Definition new_x (v : F) : G wire := fun cs => Some (push_x v cs).
Definition new_w (v : F) : G wire := fun cs => Some (push_w v cs).
Fixpoint for_each {A B} (g : A -> G B) (l : list A) : G (list B) :=
  match l with
  | [] => ret []
  | a :: l => do b <- g a; do r <- for_each g l; ret (b :: r)
  end.
Fixpoint fold_g {A B} (g : B -> A -> G B) (b : B) (l : list A) : G B :=
  match l with [] => ret b | a :: l => do b <- g b a; fold_g g b l end.

(** *** binary.rs; a [BinaryAssignment] is a wire.  [bit as u64] is 0 or 1 where the gadgets call it. *)
Definition kbit (b : bool) : F := if b then 1 else 0.
(** binary.rs:10-15 [instance], 31-36 [witness], for the bits the library passes. *)
Definition bin_instance (b : bool) : G wire := new_x (kbit b).
Definition bin_witness (b : bool) : G wire := new_w (kbit b).
(** binary.rs:39-50 [not], 53-65 [and]. *)
Definition bin_not (b : wire) : G wire := do v <- wire_of b; new_w (if keqb v 1 then 0 else 1).
Definition bin_and (a b : wire) : G wire :=
  do u <- wire_of a;
  if keqb u 1 then (do v <- wire_of b; new_w (if keqb v 1 then 1 else 0)) else new_w 0.

(** *** field.rs; a [FieldAssignment] is a row. *)
(** field.rs:14-26 [instance], [witness]; 28-34 [inputize]; 36-38 [value]; 40-42 [constant]. *)
Definition fa_instance (v : F) : G row := do w <- new_x v; ret (row_wire w).
Definition fa_witness (v : F) : G row := do w <- new_w v; ret (row_wire w).
Definition fa_inputize (r : row) : G row := do v <- value_of r; do w <- new_x v; ret (row_wire w).
Definition fa_constant (c : F) : row := [(ONE, c)].
(** field.rs:262-293 [From<&BinaryAssignment>], [Add], [Sub], [Neg]. *)
Definition fa_bit (b : wire) : row := row_wire b.
Definition fa_plus := row_add.
Definition fa_minus := row_sub.
(** field.rs:48-61 [mul], 44-46 [square]. *)
Definition fa_mul (x y : row) : G row :=
  match as_constant x with
  | Some c => ret (row_scale y c)
  | None =>
      match as_constant y with
      | Some c => ret (row_scale x c)
      | None => do u <- value_of x; do v <- value_of y; do z <- fa_witness (u * v); run gate (mul_gate x y z); ret z
      end
  end.
Definition fa_square (x : row) : G row := fa_mul x x.
(** field.rs:63-76 [add]. *)
Definition fa_add (x y : row) : G row :=
  match as_constant x with
  | Some c => ret (row_add y (row_const c))
  | None =>
      match as_constant y with
      | Some c => ret (row_add x (row_const c))
      | None => do u <- value_of x; do v <- value_of y; do z <- fa_witness (u + v); run gate (add_gate x y z); ret z
      end
  end.
(** field.rs:181-183 [enforce_eq], 257-259 [enforce_eq_constant]. *)
Definition fa_enforce_eq (x y : row) : G unit := gate (mul_gate x row_one y).
Definition fa_enforce_eq_constant (x : row) (c : F) : G unit := gate (mul_gate x row_one (fa_constant c)).
(** field.rs:185-204 [enforce_eq_bits], bits most significant first. *)
Definition fa_bits_sum (bits : list wire) : G row :=
  do r <- fold_g (fun '(acc, f) bit => do t <- fa_mul (fa_constant f) (fa_bit bit); ret (fa_plus acc t, kdbl f))
                 (fa_constant 0, 1) (rev bits);
  ret (fst r).
Definition fa_enforce_eq_bits (x : row) (bits : list wire) : G unit := do s <- fa_bits_sum bits; fa_enforce_eq x s.
(** field.rs:206-214 [conditional_enforce_equal]. *)
Definition fa_conditional_enforce_equal (x y : row) (should_enforce : wire) : G unit :=
  do m <- fa_mul (fa_minus x y) (fa_bit should_enforce); fa_enforce_eq_constant m 0.
(** binary.rs:17-29 [BinaryAssignment::conditional_enforce_equal]. *)
Definition bin_conditional_enforce_equal (x y should_enforce : wire) : G unit :=
  fa_conditional_enforce_equal (fa_bit x) (fa_bit y) should_enforce.
(** field.rs:216-230 [conditional_select]. *)
Definition fa_conditional_select (a b : row) (condition : wire) : G row :=
  do sa <- fa_mul a (fa_bit condition);
  do sb <- fa_mul b (fa_minus (fa_constant 1) (fa_bit condition));
  ret (fa_plus sa sb).
(** field.rs:241-265 [is_neq]; [invert().unwrap()] is reached on a nonzero value only. *)
Definition fa_is_neq (x y : row) : G wire :=
  do xv <- value_of x;
  do yv <- value_of y;
  do out <- bin_witness (negb (keqb xv yv));
  do multiplier <- (if keqb xv yv then fa_witness 1
                    else match kinvert (xv - yv) with Some i => fa_witness i | None => panic end);
  do m <- fa_mul (fa_minus x y) multiplier;
  run fa_enforce_eq m (fa_bit out);
  do nout <- bin_not out;
  do m <- fa_mul (fa_minus x y) (fa_bit nout);
  run fa_enforce_eq m (fa_constant 0);
  ret out.
(** field.rs:232-239 [is_eq]. *)
Definition fa_is_eq (x y : row) : G wire := do n <- fa_is_neq x y; bin_not n.

(** field.rs:86-155 [range_check].  [bits] is the field's [to_bits] (256 bits, most significant
    first).  [None]: [a_bits[0]] of an empty vector (when the bound is zero) or [p[i - 1]] out of
    bounds. *)
Fixpoint skip_zeros (l : list bool) : list bool := match l with false :: l => skip_zeros l | _ => l end.
(** [rposition(|b| b != 1)]. *)
Fixpoint last_zero (i : nat) (l : list bool) : option nat :=
  match l with
  | [] => None
  | b :: l => match last_zero (S i) l with Some j => Some j | None => if b then None else Some i end
  end.
Fixpoint rc_products (p : list row) (l : row) (acs : list (wire * bool)) : G (list row) :=
  match acs with
  | [] => ret p
  | (a, c) :: acs =>
      if c then (do n <- fa_mul l (fa_bit a); rc_products (p ++ [n]) n acs)
      else rc_products (p ++ [l]) l acs
  end.
Fixpoint rc_bools (i : nat) (p : list row) (acs : list (wire * bool)) : G unit :=
  match acs with
  | [] => ret tt
  | (a, c) :: acs =>
      run (if c then
             do b <- fa_mul (fa_minus (fa_bit a) (fa_constant 1)) (fa_bit a);
             fa_enforce_eq b (fa_constant 0)
           else match i with
                | O => panic
                | S j => match nth_error p j with
                         | Some pj =>
                             do b <- fa_mul (fa_minus (fa_minus (fa_constant 1) (fa_bit a)) pj) (fa_bit a);
                             fa_enforce_eq b (fa_constant 0)
                         | None => panic
                         end
                end);
      rc_bools (S i) p acs
  end.
Definition fa_range_check (bits : F -> list bool) (a_bits : list wire) (c : F) : G unit :=
  let c_bits := skip_zeros (bits c) in
  if Nat.ltb (length a_bits) (length c_bits) then ret tt
  else
    run for_each (fun bit => fa_enforce_eq_constant (fa_bit bit) 0) (firstn (length a_bits - length c_bits) a_bits);
    let a_bits := skipn (length a_bits - length c_bits) a_bits in
    match a_bits with
    | [] => panic
    | a0 :: a_rest =>
        let t := match last_zero 0 c_bits with Some t => t | None => (length c_bits - 1)%nat end in
        do p <- rc_products [fa_bit a0] (fa_bit a0) (combine a_rest (firstn (t + 1) (skipn 1 c_bits)));
        rc_bools 0 p (combine a_bits c_bits)
    end.
(** field.rs:78-84 [range_check_bits]; [pow2] is the field's [pow_of_2]. *)
Definition fa_range_check_bits (bits : F -> list bool) (pow2 : nat -> F) (a_bits : list wire) (num_bits : nat) : G unit :=
  fa_range_check bits a_bits (pow2 num_bits - 1).
(** field.rs:158-179 [to_bits].  [modulus] is the constant [F::MODULUS], [nbits] is [C::NUM_BITS]. *)
Definition fa_to_bits (bits : F -> list bool) (pow2 : nat -> F) (modulus : F) (nbits : nat) (x : row) (num_bits : nat) : G (list wire) :=
  if Nat.ltb 256 num_bits then panic
  else
    do v <- value_of x;
    do bs <- for_each bin_witness (bits v);
    let bit_repr := skipn (256 - num_bits) bs in
    run (if Nat.ltb num_bits nbits then fa_range_check_bits bits pow2 bit_repr num_bits
         else fa_range_check bits bit_repr (modulus - 1));
    ret bit_repr.

(** *** curve.rs *)
(** curve.rs:8-13 [PointAssignment]. *)
Record point_asg : Type := PA { pa_x : row; pa_y : row; pa_z : row }.
(** curve.rs:16-33 [instance], 58-69 [witness], 50-56 [identity]. *)
Definition pa_instance (p : aff F) : G point_asg :=
  do x <- fa_instance (ax p); do y <- fa_instance (ay p); do z <- fa_instance (if ainf p then 0 else 1); ret (PA x y z).
Definition pa_witness (xv yv : F) (is_infinity : bool) : G point_asg :=
  do x <- fa_witness xv; do y <- fa_witness yv; do z <- fa_witness (if is_infinity then 0 else 1); ret (PA x y z).
Definition pa_identity : point_asg := PA (fa_constant 0) (fa_constant 1) (fa_constant 0).
(** curve.rs:187-200 [select_identity]. *)
Definition pa_select_identity (p : point_asg) (bit : wire) : G point_asg :=
  do x <- fa_mul (pa_x p) (fa_bit bit);
  do y <- fa_mul (pa_y p) (fa_bit bit);
  do z <- fa_mul (pa_z p) (fa_bit bit);
  ret (PA x (fa_minus (fa_plus y (fa_constant 1)) (fa_bit bit)) z).
(** curve.rs:35-48 [descale]. *)
Definition pa_descale (p : point_asg) : G point_asg :=
  do take_value <- fa_is_neq (pa_z p) (fa_constant 0);
  do zv <- value_of (pa_z p);
  do inv <- fa_witness (match kinvert zv with Some i => i | None => 0 end);
  do x <- fa_mul (pa_x p) inv;
  do y <- fa_mul (pa_y p) inv;
  pa_select_identity (PA x y (fa_constant 1)) take_value.
(** curve.rs:71-90 [assert_equal_public_point]. *)
Definition pa_assert_equal_public_point (p : point_asg) (q : proj F) : G unit :=
  do xz1 <- fa_mul (pa_x p) (fa_constant (jz q));
  do xz2 <- fa_mul (fa_constant (jx q)) (pa_z p);
  run fa_enforce_eq xz1 xz2;
  do yz1 <- fa_mul (pa_y p) (fa_constant (jz q));
  do yz2 <- fa_mul (fa_constant (jy q)) (pa_z p);
  fa_enforce_eq yz1 yz2.
(** curve.rs:92-134 [add]; [b3] is [C::b3()]. *)
Definition pa_add (b3 : F) (p q : point_asg) : G point_asg :=
  let b3 := fa_constant b3 in
  do t0 <- fa_mul (pa_x p) (pa_x q);
  do t1 <- fa_mul (pa_y p) (pa_y q);
  do t2 <- fa_mul (pa_z p) (pa_z q);
  let t3 := fa_plus (pa_x p) (pa_y p) in
  let t4 := fa_plus (pa_x q) (pa_y q) in
  do t3 <- fa_mul t3 t4;
  let t4 := fa_plus t0 t1 in
  let t3 := fa_minus t3 t4 in
  let t4 := fa_plus (pa_y p) (pa_z p) in
  let x3 := fa_plus (pa_y q) (pa_z q) in
  do t4 <- fa_mul t4 x3;
  let x3 := fa_plus t1 t2 in
  let t4 := fa_minus t4 x3 in
  let x3 := fa_plus (pa_x p) (pa_z p) in
  let y3 := fa_plus (pa_x q) (pa_z q) in
  do x3 <- fa_mul x3 y3;
  let y3 := fa_plus t0 t2 in
  let y3 := fa_minus x3 y3 in
  let x3 := fa_plus t0 t0 in
  let t0 := fa_plus x3 t0 in
  do t2 <- fa_mul t2 b3;
  let z3 := fa_plus t1 t2 in
  let t1 := fa_minus t1 t2 in
  do y3 <- fa_mul y3 b3;
  do x3 <- fa_mul t4 y3;
  do t2 <- fa_mul t3 t1;
  let x3 := fa_minus t2 x3 in
  do y3 <- fa_mul y3 t0;
  do t1 <- fa_mul t1 z3;
  let y3 := fa_plus t1 y3 in
  do t0 <- fa_mul t0 t3;
  do z3 <- fa_mul z3 t4;
  let z3 := fa_plus z3 t0 in
  ret (PA x3 y3 z3).
(** curve.rs:136-164 [double]. *)
Definition pa_double (b3 : F) (p : point_asg) : G point_asg :=
  let b3 := fa_constant b3 in
  do t0 <- fa_mul (pa_y p) (pa_y p);
  let z3 := fa_plus t0 t0 in
  let z3 := fa_plus z3 z3 in
  let z3 := fa_plus z3 z3 in
  do t1 <- fa_mul (pa_y p) (pa_z p);
  do t2 <- fa_mul (pa_z p) (pa_z p);
  do t2 <- fa_mul t2 b3;
  do x3 <- fa_mul t2 z3;
  let y3 := fa_plus t0 t2 in
  do z3 <- fa_mul t1 z3;
  let t1 := fa_plus t2 t2 in
  let t2 := fa_plus t1 t2 in
  let t0 := fa_minus t0 t2 in
  do y3 <- fa_mul t0 y3;
  let y3 := fa_plus x3 y3 in
  do t1 <- fa_mul (pa_x p) (pa_y p);
  do x3 <- fa_mul t0 t1;
  let x3 := fa_plus x3 x3 in
  ret (PA x3 y3 z3).
(** curve.rs:167-180 [scalar_point]. *)
Definition pa_scalar_point (b3 : F) (bits : F -> list bool) (pow2 : nat -> F) (modulus : F) (nbits : nat)
    (p : point_asg) (scalar : row) : G point_asg :=
  do bs <- fa_to_bits bits pow2 modulus nbits scalar 256;
  fold_g (fun res bit => do res <- pa_double b3 res; do q <- pa_select_identity p bit; pa_add b3 res q) pa_identity bs.
(** curve.rs:182-194 [conditional_select]. *)
Definition pa_conditional_select (a b : point_asg) (condition : wire) : G point_asg :=
  do x <- fa_conditional_select (pa_x a) (pa_x b) condition;
  do y <- fa_conditional_select (pa_y a) (pa_y b) condition;
  do z <- fa_conditional_select (pa_z a) (pa_z b) condition;
  ret (PA x y z).
End R1cs.
Arguments r_m {F}. Arguments r_a {F}. Arguments r_b {F}. Arguments r_c {F}. Arguments r_x {F}. Arguments r_w {F}.
Arguments pa_x {F}. Arguments pa_y {F}. Arguments pa_z {F}. Arguments PA {F}. Arguments mkR1cs {F}.
Arguments ret {F A}. Arguments bind {F A B}. Arguments panic {F A}. Arguments G F A : clear implicits.
Arguments for_each {F A B}. Arguments fold_g {F A B}. Arguments gate {F}. Arguments value_of {F}. Arguments wire_of {F}.
Arguments row_evaluate {F}. Arguments wire_value {F}.
