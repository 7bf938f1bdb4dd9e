(** What the folding scheme is about: relaxed rank-one systems and openings of commitments. *)
From Coq Require Import ZArith List Bool.
From Verif Require Import Algebra GroupLib R1csModel R1csSpec Groth16Spec NovaModel.
Import ListNotations.
Local Open Scope fld_scope.

(** A field of 254-bit prime order [p] whose elements are the residues. *)
Record field_ok (F : pfield) (p : Z) : Prop := {
  fo_cf : circuit_field F (pf_val F) p (pf_bits F) (pf_pow2 F) (pf_modulus F) (pf_nbits F);
  fo_of : forall n, pf_val F (pf_of F n) = (n mod p)%Z }.

Section Relaxed.
Variable S : Fld.
(** The first wire carries [u], the next ones the public inputs, the others the witness. *)
Definition asg_of (u : S) (x w : list S) : asg S :=
  fun i => match i with Inst O => u | Inst (Datatypes.S i) => nth i x 0 | Wit j => nth j w 0 end.
(** Three matrices with [sh_m] rows over the wires there are. *)
Definition wf_shape (sh : shape S) : Prop :=
  length (sh_a sh) = sh_m sh /\ length (sh_b sh) = sh_m sh /\ length (sh_c sh) = sh_m sh /\
  Forall (fun r : row S => Forall (fun i => match i with Inst i => (i <= sh_l sh)%nat | Wit j => (j < sh_w sh)%nat end) (map fst r)) (sh_a sh ++ sh_b sh ++ sh_c sh).
(** Row by row: (A z)(B z) = u (C z) + e. *)
Definition relaxed_holds (sh : shape S) (u : S) (x w e : list S) : Prop :=
  forall i, (i < sh_m sh)%nat ->
    lc (asg_of u x w) (nth i (sh_a sh) []) * lc (asg_of u x w) (nth i (sh_b sh) []) = u * lc (asg_of u x w) (nth i (sh_c sh) []) + nth i e 0.
(** The usual system: u = 1 and no error. *)
Definition strict_holds (sh : shape S) (x w : list S) : Prop := relaxed_holds sh 1 x w (repeat 0 (sh_m sh)).
End Relaxed.
Arguments asg_of {S}. Arguments wf_shape {S}. Arguments relaxed_holds {S}. Arguments strict_holds {S}.

Section Pairs.
Variables (B S : pfield) (C : driver B S).
Definition sized (sh : shape S) (U : rinst C) (W : rwit S) : Prop :=
  length (ri_x U) = sh_l sh /\ length (rw_w W) = sh_w sh /\ length (rw_e W) = sh_m sh.
(** A relaxed instance with a witness that satisfies it and opens its commitments; the same for a strict one. *)
Definition relaxed_pair (sh : shape S) (g : list (d_pt C)) (U : rinst C) (W : rwit S) : Prop :=
  sized sh U W /\ relaxed_holds sh (ri_u U) (ri_x U) (rw_w W) (rw_e W) /\ ri_w U = commit C g (rw_w W) /\ ri_e U = commit C g (rw_e W).
Definition strict_pair (sh : shape S) (g : list (d_pt C)) (i : inst C) (w : list S) : Prop :=
  length (i_x i) = sh_l sh /\ length w = sh_w sh /\ strict_holds sh (i_x i) w /\ i_w i = commit C g w.
(** Two different messages with one commitment. *)
Definition collision (g : list (d_pt C)) : Prop := exists a b : list S, length a = length b /\ a <> b /\ commit C g a = commit C g b.
End Pairs.
Arguments sized {B S C}. Arguments relaxed_pair {B S C}. Arguments strict_pair {B S C}. Arguments collision {B S}.

(** What the theorems ask of a driver: two fields, and a group on which the scalars act. *)
Record driver_ok {B S : pfield} (C : driver B S) (q p : Z) : Prop := {
  do_base : field_ok B q;
  do_scalar : field_ok S p;
  do_eq : forall P Q, d_eqb C P Q = true <-> P = Q;
  do_mul : module_laws S (d_pt C) (d_mul C) }.

(** The exponents as a group, so that the hypotheses about curves can be met by something small. *)
Definition exp_driver (B S : pfield) (coord : S -> B) (order : Z) (b3 : B) : driver B S :=
  mkDriver B S (fld_grp S) keqb kmul coord coord (fun p : S => keqb p 0) order b3.
