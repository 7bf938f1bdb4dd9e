(** nova/src/circuit (augmented.rs, nifs.rs, transcript.rs) and the gadgets instance.rs,
    relaxed_instance.rs and mimc.rs: the verifier of a folding step as a circuit.
    The circuits are over [B], the base field of the driver [C] whose instances they fold. *)
From Coq Require Import ZArith List Bool.
From Verif Require Import Algebra GroupLib R1csModel NovaModel BigNatModel.
Import ListNotations.
Local Open Scope fld_scope.
Notation "'do' x <- g ; k" := (bind g (fun x => k)) (at level 200, x name, g at level 100, k at level 200).
Notation "'run' g ; k" := (bind g (fun _ => k)) (at level 200, g at level 100, k at level 200).

(** function.rs:7-16 [FunctionCircuit]. *)
Record fcircuit (F : Fld) := mkFc { fc_invoke : list F -> list F; fc_invoke_cs : list (row F) -> G F (list (row F)) }.
Arguments mkFc {F}. Arguments fc_invoke {F}. Arguments fc_invoke_cs {F}.

Section Transcript.
Variable B : pfield.
Notation row := (row B).
Notation to_bits := (fa_to_bits B (pf_bits B) (pf_pow2 B) (pf_modulus B) (pf_nbits B)).

(** mimc.rs:19-35 [MimcAssignment::hash]. *)
Definition mimc_round_g (st : row * row) (c : B) : G B (row * row) :=
  let '(xl, xr) := st in
  let cxl := fa_plus B xl (fa_constant B c) in
  do ccxl <- fa_square B cxl;
  do cccxl <- fa_square B ccxl;
  do m <- fa_mul B cccxl ccxl;
  do m <- fa_mul B m cxl;
  ret (fa_plus B m xr, xl).
Definition mimc_g (xl xr : row) : G B row := do st <- fold_g mimc_round_g (xl, xr) (pf_consts B); ret (fst st).
(** transcript.rs:43-46: the fold of [squeeze]. *)
Definition mimc_absorb_g (state : list row) : G B row :=
  fold_g (fun acc scalar => do h <- mimc_g scalar acc; ret (fa_plus B (fa_plus B acc scalar) h)) (fa_constant B 0) state.
(** transcript.rs:38-59 [squeeze]; the transcript is the list of absorbed rows. *)
Definition squeeze_g (state : list row) (num_bits : nat) : G B row :=
  do hash <- mimc_absorb_g state;
  do bits <- to_bits hash num_bits;
  do r <- fold_g (fun '(val, mult) bit =>
                    do val <- fa_conditional_select B (fa_plus B val mult) val bit;
                    ret (val, fa_plus B mult mult)) (fa_constant B 0, fa_constant B 1) (firstn num_bits (rev bits));
  ret (fst r).
(** transcript.rs:32-36 [append_point]. *)
Definition point_rows (p : point_asg B) : list row := [pa_x p; pa_y p; pa_z p].
End Transcript.

Section Augmented.
Variables (B S : pfield) (C : driver B S).
Notation row := (row B).
Notation pt := (d_pt C).

(** [x[i]]. *)
Definition at_ (x : list S) (i : nat) : G B S := lift B (nth_error x i).
(** [PointAssignment::witness] of an affine point (instance.rs:24-29, relaxed_instance.rs:34-45, augmented.rs:79-84). *)
Definition point_witness (p : pt) : G B (point_asg B) := pa_witness B (d_x C p) (d_y C p) (d_inf C p).

(** instance.rs:10-15 [R1csInstanceAssignment]; 18-35 [witness]; 37-48 [conditional_select]. *)
Record inst_asg := mkIA { ia_w : point_asg B; ia_x0 : row; ia_x1 : row }.
Definition ia_witness (i : inst C) : G B inst_asg :=
  do w <- point_witness (i_w i);
  do v <- at_ (i_x i) 0;
  do x0 <- fa_witness B (transfer S B v);
  do v <- at_ (i_x i) 1;
  do x1 <- fa_witness B (transfer S B v);
  ret (mkIA w x0 x1).
Definition ia_conditional_select (a b : inst_asg) (condition : wire) : G B inst_asg :=
  do w <- pa_conditional_select B (ia_w a) (ia_w b) condition;
  do x0 <- fa_conditional_select B (ia_x0 a) (ia_x0 b) condition;
  do x1 <- fa_conditional_select B (ia_x1 a) (ia_x1 b) condition;
  ret (mkIA w x0 x1).

(** relaxed_instance.rs:13-20 [RelaxedR1csInstanceAssignment]; 23-59 [witness]; 61-84 [from_r1cs_instance];
    86-104 [conditional_select]. *)
Record rinst_asg := mkRA { ra_w : point_asg B; ra_e : point_asg B; ra_u : row; ra_x0 : bignat B; ra_x1 : bignat B }.
Definition ra_witness (i : rinst C) : G B rinst_asg :=
  do w <- point_witness (ri_w i);
  do e <- point_witness (ri_e i);
  do u <- fa_witness B (transfer S B (ri_u i));
  do v <- at_ (ri_x i) 0;
  do x0 <- bn_witness B (pf_val S v) BN_LIMB_WIDTH BN_N_LIMBS;
  do v <- at_ (ri_x i) 1;
  do x1 <- bn_witness B (pf_val S v) BN_LIMB_WIDTH BN_N_LIMBS;
  ret (mkRA w e u x0 x1).
Definition ra_from_instance (i : inst_asg) : G B rinst_asg :=
  do x0 <- bn_from_field B (ia_x0 i) BN_LIMB_WIDTH BN_N_LIMBS;
  do x1 <- bn_from_field B (ia_x1 i) BN_LIMB_WIDTH BN_N_LIMBS;
  ret (mkRA (ia_w i) (pa_identity B) (fa_constant B 1) x0 x1).
Definition ra_conditional_select (a b : rinst_asg) (condition : wire) : G B rinst_asg :=
  do w <- pa_conditional_select B (ra_w a) (ra_w b) condition;
  do e <- pa_conditional_select B (ra_e a) (ra_e b) condition;
  do u <- fa_conditional_select B (ra_u a) (ra_u b) condition;
  do x0 <- bn_conditional_select B (ra_x0 a) (ra_x0 b) condition;
  do x1 <- bn_conditional_select B (ra_x1 a) (ra_x1 b) condition;
  ret (mkRA w e u x0 x1).
(** relaxed_instance.rs:106-122 [absorb_by_transcript]: what is appended. *)
Definition ra_absorb (a : rinst_asg) : G B (list row) :=
  do e <- pa_descale B (ra_e a);
  do w <- pa_descale B (ra_w a);
  ret (point_rows B w ++ point_rows B e ++ [ra_u a] ++ bn_limbs (ra_x0 a) ++ bn_limbs (ra_x1 a)).
(** relaxed_instance.rs:124-137 [hash]. *)
Definition ra_hash (a : rinst_asg) (i : row) (z_0 z_i : list row) : G B row :=
  do st <- ra_absorb a;
  squeeze_g B ([i] ++ z_0 ++ z_i ++ st) HASH_BITS.

(** nifs.rs:15-73 [NifsCircuit::verify]; [z_inv] and [r_bn] are computed and not used. *)
Notation scalar_point := (pa_scalar_point B (d_b3 C) (pf_bits B) (pf_pow2 B) (pf_modulus B) (pf_nbits B)).
Definition nifs_x (x_range : bignat B) (x_single : row) (r_bn m_bn : bignat B) : G B (bignat B) :=
  do v <- value_of x_single;
  do x_bn <- bn_witness B (pf_val B v) BN_LIMB_WIDTH BN_N_LIMBS;
  do r_x <- bn_mult_mod B x_bn r_bn m_bn;
  do sum <- lift B (bn_add B x_range r_x);
  bn_red_mod B sum m_bn.
Definition nifs_verify (r : row) (u_range : rinst_asg) (u_single : inst_asg) (commit_t : point_asg B) : G B rinst_asg :=
  do r_w <- scalar_point (ia_w u_single) r;
  do w_fold <- pa_add B (d_b3 C) (ra_w u_range) r_w;
  do z_inv <- value_of (pa_z w_fold);
  do r_t <- scalar_point commit_t r;
  do e_fold <- pa_add B (d_b3 C) (ra_e u_range) r_t;
  do r_bn <- value_of r;
  do r_bn <- bn_from_field B r BN_LIMB_WIDTH BN_N_LIMBS;
  do m_bn <- bn_witness B (d_order C) BN_LIMB_WIDTH BN_N_LIMBS;
  do uv <- value_of (ra_u u_range);
  do rv <- value_of r;
  do u_fold <- fa_witness B (uv + rv);
  run fa_enforce_eq_constant B (fa_minus B (fa_minus B u_fold (ra_u u_range)) r) 0;
  do x0 <- nifs_x (ra_x0 u_range) (ia_x0 u_single) r_bn m_bn;
  do x1 <- nifs_x (ra_x1 u_range) (ia_x1 u_single) r_bn m_bn;
  ret (mkRA w_fold e_fold u_fold x0 x1).

(** augmented.rs:127-136 [get_challenge]. *)
Definition get_challenge (u_range : rinst_asg) (commit_t : point_asg B) : G B row :=
  do st <- ra_absorb u_range;
  squeeze_g B (point_rows B commit_t ++ st) CHALLENGE_BITS.

(** augmented.rs:14-24 [AugmentedFCircuit]. *)
Record aug := mkAug { ac_primary : bool; ac_i : Z; ac_z0 : list B; ac_zi : option (list B); ac_single : option (inst C);
                      ac_range : option (rinst C); ac_t : option pt }.
Definition or_else {A} (o : option A) (d : A) : A := match o with Some a => a | None => d end.
(** augmented.rs:42-125 [generate]. *)
Definition generate (FC : fcircuit B) (c : aug) : G B (list row) :=
  do i <- fa_witness B (pf_of B (ac_i c));
  do z_0 <- for_each (fa_witness B) (ac_z0 c);
  do z_i <- for_each (fa_witness B) (or_else (ac_zi c) (ac_z0 c));
  do u_dummy <- ra_witness (rinst_dummy C 2);
  do u_single <- ia_witness (or_else (ac_single c) (inst_dummy C 2));
  do u_range <- ra_witness (or_else (ac_range c) (rinst_dummy C 2));
  do commit_t <- point_witness (or_else (ac_t c) a0);
  let zero := fa_constant B 0 in
  do base_case <- fa_is_eq B i zero;
  do not_base_case <- fa_is_neq B i zero;
  do base <- (if ac_primary c then ret u_dummy else ra_from_instance u_single);
  do u_i_x <- ra_hash u_range i z_0 z_i;
  run fa_conditional_enforce_equal B (ia_x0 u_single) u_i_x not_base_case;
  do r <- get_challenge u_range commit_t;
  do non_base <- nifs_verify r u_range u_single commit_t;
  do u_range_next <- ra_conditional_select base non_base base_case;
  do z_next <- fc_invoke_cs FC z_i;
  do u_next_x <- ra_hash u_range_next (fa_plus B i (fa_constant B 1)) z_0 z_next;
  do x0 <- fa_inputize B (ia_x1 u_single);
  do x1 <- fa_inputize B u_next_x;
  ret z_next.
End Augmented.
Arguments mkIA {B}. Arguments ia_w {B}. Arguments ia_x0 {B}. Arguments ia_x1 {B}.
Arguments mkRA {B}. Arguments ra_w {B}. Arguments ra_e {B}. Arguments ra_u {B}. Arguments ra_x0 {B}. Arguments ra_x1 {B}.
Arguments mkAug {B S C}. Arguments ac_primary {B S C}. Arguments ac_i {B S C}. Arguments ac_z0 {B S C}. Arguments ac_zi {B S C}.
Arguments ac_single {B S C}. Arguments ac_range {B S C}. Arguments ac_t {B S C}. Arguments aug {B S}. Arguments generate {B S C}.

(** test.rs:14-35 [ExampleFunction]: z^3 + z + 5; [None]: [z_i[0]] of an empty vector. *)
Definition example_function (F : pfield) : fcircuit F :=
  mkFc (fun z => match z with z0 :: _ => [z0 * z0 * z0 + z0 + pf_of F 5] | [] => [] end)
       (fun z => match z with
                 | z0 :: _ => do sq <- fa_mul F z0 z0; do cu <- fa_mul F sq z0; ret [fa_plus F (fa_plus F cu z0) (fa_constant F (pf_of F 5))]
                 | [] => panic
                 end).
