(** Properties C12-C17 (extension fields of BN254).  [FqFld] is Fq on Montgomery limbs;
    the tower is computed on it by the functions of ExtModel.v. *)
From Coq Require Import ZArith List Bool Lia Field Ring Znumtheory.
From Verif Require Import LimbModel LimbProofs MontProofs FieldModel FieldSpec FieldProofs PowProofs FieldMore
  Algebra ExtModel ExtSpec ExtProofs ExtParams RingPow ExtFrob ClaimsField.
Import ListNotations.
Local Open Scope Z_scope.

(** ** C12 (Fq2) *)
Theorem C12_fq2 a0 a1 x0 x1 : represents Q_MOD a0 x0 -> represents Q_MOD a1 x1 ->
  let lex := fq2_lexicographically_largest in
  (lex (a0, a1) = true <-> (Q_MOD - 1) / 2 < (if x1 =? 0 then x0 else x1)) /\
  (~ (x0 = 0 /\ x1 = 0) -> lex (fneg fq a0, fneg fq a1) = negb (lex (a0, a1))) /\
  (x0 = 0 /\ x1 = 0 -> lex (a0, a1) = false).
Proof.
  intros H0 H1 lex. destruct (C12_lexicographically_largest a0 x0 H0) as (A0 & B0 & C0).
  destruct (C12_lexicographically_largest a1 x1 H1) as (A1 & B1 & C1).
  assert (Z1 : forall a x, represents Q_MOD a x -> eqb4 a fzero = (x =? 0)).
  { intros a x H. destruct (C01_eq fq Q_MOD a fzero x 0) as [E _]; [right; auto|exact H|apply (C01_zero fq Q_MOD); right; auto|]. unfold feqb in E.
    destruct (eqb4 a fzero), (Z.eqb_spec x 0); try reflexivity; [destruct n; apply E; reflexivity|apply E in e; discriminate]. }
  assert (N1 : represents Q_MOD (fneg fq a1) ((- x1) mod Q_MOD)) by (apply C01_neg; [right; auto|exact H1]).
  assert (HQ : 0 < Q_MOD) by (rewrite Q_MOD_val; reflexivity). assert (R1 : 0 <= x1 < Q_MOD) by apply H1. assert (R0 : 0 <= x0 < Q_MOD) by apply H0.
  assert (NZ : ((- x1) mod Q_MOD =? 0) = (x1 =? 0)).
  { destruct (Z.eqb_spec x1 0) as [->|N]; [reflexivity|]. apply Z.eqb_neq. intros E. apply N. apply Z.mod_divide in E; [|lia].
    destruct E as [k E]. assert (k = 0) by nia. subst k. lia. }
  unfold lex, fq2_lexicographically_largest. cbn [fst snd]. rewrite (Z1 a1 x1 H1), (Z1 _ _ N1), NZ.
  destruct (Z.eqb_spec x1 0) as [E|N].
  - rewrite (C1 E). destruct (lexicographically_largest (fneg fq a1)) eqn:L.
    + exfalso. destruct (C12_lexicographically_largest _ _ N1) as (_ & _ & C). rewrite (C ltac:(subst x1; reflexivity)) in L. discriminate L.
    + cbn [orb andb]. split; [exact A0|]. split; [intros NN; apply B0; tauto|]. intros [E0 _]. apply C0, E0.
  - cbn [andb]. rewrite !orb_false_r. split; [exact A1|]. split; [intros _; apply B1, N|]. tauto.
Qed.
Example C12_fq2_example :
  fq2_lexicographically_largest (ffrom_u64 fq 5, ffrom_u64 fq 3) = false /\
  fq2_lexicographically_largest (fneg fq (ffrom_u64 fq 5), fneg fq (ffrom_u64 fq 3)) = true.
Proof. vm_compute. auto. Qed.

(** ** C13 (extension fields): which operator forms agree with the by-value ones, and which do not. *)
Section RefFormsClaims.
Context {T : Type} (add sub mul : T -> T -> T).
Theorem C13_ext_correct_forms a b : let o := mkOps add sub mul in
  ext_add_ref_ref o a b = add a b /\ ext_add_ref_val o a b = add a b /\ ext_add_assign o a b = add a b /\
  ext_sub_assign o a b = sub a b /\ ext_sub_assign_ref o a b = sub a b /\ ext_mul_assign o a b = mul a b.
Proof. repeat split. Qed.
End RefFormsClaims.
(** [a + &b] and [a += &b] never return, whatever the stack. *)
Theorem C13_ext_add_ref_diverges (T : Type) fuel (a b : T) :
  ext_add_val_ref fuel a b = None /\ ext_add_assign_ref fuel a b = None.
Proof. split; (induction fuel; [reflexivity|assumption]). Qed.
(** Reference subtraction multiplies and reference multiplication adds: on (0, 1), by value
    0 - 1 = -1 and 0 * 1 = 0 but the reference forms give 0 and 1; on every level of the tower. *)
Definition wrong_forms {T} (zero one : T) (add sub mul : T -> T -> T) : Prop :=
  let o := mkOps add sub mul in
  ext_sub_ref_ref o zero one <> sub zero one /\ ext_sub_val_ref o zero one <> sub zero one /\
  ext_sub_ref_val o zero one <> sub zero one /\ ext_mul_ref_ref o zero one <> mul zero one /\
  ext_mul_val_ref o zero one <> mul zero one /\ ext_mul_assign_ref o zero one <> mul zero one.
Section WrongForms.
Context {T : Type} (zero one : T) (add mul sub : T -> T -> T) (opp : T -> T).
Hypothesis RT : ring_theory zero one add mul sub opp (@eq T).
Add Ring trg : RT.
Lemma wrong_forms_ring : one <> zero -> wrong_forms zero one add sub mul.
Proof.
  intros N.
  unfold wrong_forms, ext_sub_ref_ref, ext_sub_val_ref, ext_sub_ref_val, ext_mul_assign_ref, ext_mul_ref_ref, ext_mul_val_ref. cbn [o_add o_sub o_mul].
  assert (A : mul zero one <> sub zero one).
  { intros E. apply N. transitivity (add (mul zero one) one); [ring|]. rewrite E. ring. }
  assert (C : add zero one <> mul zero one).
  { intros E. apply N. transitivity (add zero one); [ring|]. rewrite E. ring. }
  tauto.
Qed.
End WrongForms.
Theorem C13_ext_reference_forms_refuted :
  wrong_forms (q2_0 FqFld) (q2_1 FqFld) (q2_add FqFld) (q2_sub FqFld) (q2_mul FqFld) /\
  wrong_forms (q6_0 FqFld) (q6_1 FqFld) (q6_add FqFld) (q6_sub FqFld) (q6_mul FqFld) /\
  wrong_forms (q12_0 FqFld) (q12_1 FqFld) (q12_add FqFld) (q12_sub FqFld) (q12_mul FqFld).
Proof.
  split; [|split].
  - eapply wrong_forms_ring; [apply q2_ring|]. intros E. apply (f_equal c0) in E. exact (k1_neq0 _ E).
  - eapply wrong_forms_ring; [apply q6_ring|]. intros E. apply (f_equal (fun x => c0 (d0 x))) in E. exact (k1_neq0 _ E).
  - eapply wrong_forms_ring; [apply q12_ring|]. intros E. apply (f_equal (fun x => c0 (d0 (e0 x)))) in E. exact (k1_neq0 _ E).
Qed.

(** ** C14: quotient-ring arithmetic.  Elements are the remainders c0 + c1 X (+ c2 X^2). *)
Definition co2 (a : F2) : list FqFld := [c0 a; c1 a].
Definition co6 (a : F6) : list F2 := [d0 a; d1 a; d2 a].
Definition co12 (a : F12) : list F6 := [e0 a; e1 a].
(** X^2 + 1 over Fq, X^3 - (9 + u) over Fq2, X^2 - v over Fq6. *)
Definition nine_plus_u : F2 := Q2 (fq_mk 9) k1.
Definition mod2 : list FqFld := [k1; k0; k1].
Definition mod6 : list F2 := [q2_neg FqFld nine_plus_u; q2_0 FqFld; q2_0 FqFld; q2_1 FqFld].
Definition mod12 : list F6 := [q6_neg FqFld (Q6 (q2_0 FqFld) (q2_1 FqFld) (q2_0 FqFld)); q6_0 FqFld; q6_1 FqFld].
Definition cong2 := congruent (@k0 FqFld) kadd kmul mod2.
Definition cong6 := congruent (q2_0 FqFld) (q2_add FqFld) (q2_mul FqFld) mod6.
Definition cong12 := congruent (q6_0 FqFld) (q6_add FqFld) (q6_mul FqFld) mod12.
Notation pmul2 := (poly_mul (@k0 FqFld) kadd kmul).
Notation pmul6 := (poly_mul (q2_0 FqFld) (q2_add FqFld) (q2_mul FqFld)).
Notation pmul12 := (poly_mul (q6_0 FqFld) (q6_add FqFld) (q6_mul FqFld)).
Lemma nine_xi : nine_plus_u = ExtProofs.xi FqFld.
Proof.
  unfold nine_plus_u, ExtProofs.xi, q2_xi, k9. f_equal. apply fq_val_inj. cbn [kofnat].
  rewrite fq_val_mk, !fq_val_add, fq_val_0, !fq_val_1. rewrite Q_MOD_val. reflexivity.
Qed.
Ltac coeff k := destruct k as [|[|[|[|[|[|k]]]]]]; cbn [nth poly_mul poly_add poly_scale map c0 c1 d0 d1 d2 e0 e1]; try ring; try (destruct k; ring).
Lemma c14_2 a b : cong2 (pmul2 (co2 a) (co2 b)) (co2 (q2_mul FqFld a b)).
Proof. exists [kmul (c1 a) (c1 b)]. intros k. unfold co2, mod2, q2_mul. coeff k. Qed.
Lemma c14_6 a b : cong6 (pmul6 (co6 a) (co6 b)) (co6 (q6_mul FqFld a b)).
Proof.
  exists [q2_add FqFld (q2_mul FqFld (d1 a) (d2 b)) (q2_mul FqFld (d2 a) (d1 b)); q2_mul FqFld (d2 a) (d2 b)].
  rewrite q6_mul_coords. unfold co6, mod6. rewrite nine_xi. generalize (ExtProofs.xi FqFld). intros x k. coeff k.
Qed.
Lemma c14_12 a b : cong12 (pmul12 (co12 a) (co12 b)) (co12 (q12_mul FqFld a b)).
Proof.
  exists [q6_mul FqFld (e1 a) (e1 b)]. rewrite q12_mul_coords. unfold co12, mod12. change (Q6 (q2_0 FqFld) (q2_1 FqFld) (q2_0 FqFld)) with (vv FqFld).
  generalize (vv FqFld). intros x k. coeff k.
Qed.
(** a * b is the remainder of the product polynomial. *)
Theorem C14_mul :
  (forall a b, cong2 (pmul2 (co2 a) (co2 b)) (co2 (q2_mul FqFld a b))) /\
  (forall a b, cong6 (pmul6 (co6 a) (co6 b)) (co6 (q6_mul FqFld a b))) /\
  (forall a b, cong12 (pmul12 (co12 a) (co12 b)) (co12 (q12_mul FqFld a b))).
Proof. exact (conj c14_2 (conj c14_6 c14_12)). Qed.
(** Remainders are unique: an element congruent to the product is the product. *)
Theorem C14_remainder_unique :
  (forall p a b, cong2 p (co2 a) -> cong2 p (co2 b) -> a = b) /\
  (forall p a b, cong6 p (co6 a) -> cong6 p (co6 b) -> a = b) /\
  (forall p a b, cong12 p (co12 a) -> cong12 p (co12 b) -> a = b).
Proof.
  split; [|split]; intros p a b H1 H2.
  - assert (E : co2 a = co2 b). { apply (remainder_unique _ _ _ _ _ _ fring 2 mod2 p); [reflexivity| |reflexivity|reflexivity|exact H1|exact H2]. intros [|[|[|[|k]]]] Hk; try lia; (reflexivity || (destruct k; reflexivity)). }
    unfold co2 in E. apply q2_eq; congruence.
  - assert (E : co6 a = co6 b). { apply (remainder_unique _ _ _ _ _ _ (q2_ring FqFld) 3 mod6 p); [reflexivity| |reflexivity|reflexivity|exact H1|exact H2]. intros [|[|[|[|[|k]]]]] Hk; try lia; (reflexivity || (destruct k; reflexivity)). }
    unfold co6 in E. apply q6_eq; congruence.
  - assert (E : co12 a = co12 b). { apply (remainder_unique _ _ _ _ _ _ (q6_ring FqFld) 2 mod12 p); [reflexivity| |reflexivity|reflexivity|exact H1|exact H2]. intros [|[|[|[|k]]]] Hk; try lia; (reflexivity || (destruct k; reflexivity)). }
    unfold co12 in E. apply q12_eq; congruence.
Qed.
Theorem C14_squares_and_small_operations :
  (forall a, q2_sq FqFld a = q2_mul FqFld a a) /\ (forall a, q6_sq FqFld a = q6_mul FqFld a a) /\ (forall a, q12_sq FqFld a = q12_mul FqFld a a) /\
  (forall a, q2_dbl FqFld a = q2_add FqFld a a) /\ (forall a, q6_dbl FqFld a = q6_add FqFld a a) /\ (forall a, q12_dbl FqFld a = q12_add FqFld a a) /\
  (forall a, cong6 (pmul6 [nine_plus_u] (co6 a)) (map (q2_nonres FqFld) (co6 a))) /\
  (forall a, cong6 (q2_0 FqFld :: co6 a) (co6 (q6_nonres FqFld a))).
Proof.
  split; [apply q2_sq_mul|]. split; [apply q6_sq_mul|]. split; [apply q12_sq_mul|].
  split; [apply q2_dbl_add|]. split; [apply q6_dbl_add|]. split; [apply q12_dbl_add|]. split.
  - intros a. exists []. intros k. rewrite nine_xi. unfold co6. cbn [map]. rewrite !q2_nonres_mul. fold (ExtProofs.xi FqFld). generalize (ExtProofs.xi FqFld). intros x. coeff k.
  - intros a. exists [d2 a]. intros k. unfold co6, mod6, q6_nonres. cbn [d0 d1 d2]. rewrite q2_nonres_mul, nine_xi. fold (ExtProofs.xi FqFld). generalize (ExtProofs.xi FqFld). intros x. coeff k.
Qed.
Theorem C14_commutative_rings :
  ring_theory (q2_0 FqFld) (q2_1 FqFld) (q2_add FqFld) (q2_mul FqFld) (q2_sub FqFld) (q2_neg FqFld) eq /\
  ring_theory (q6_0 FqFld) (q6_1 FqFld) (q6_add FqFld) (q6_mul FqFld) (q6_sub FqFld) (q6_neg FqFld) eq /\
  ring_theory (q12_0 FqFld) (q12_1 FqFld) (q12_add FqFld) (q12_mul FqFld) (q12_sub FqFld) (q12_neg FqFld) eq.
Proof. exact (conj (q2_ring FqFld) (conj (q6_ring FqFld) (q12_ring FqFld))). Qed.
(** + and - are coefficientwise; == is equality of all coefficients. *)
Theorem C14_coefficientwise :
  (forall a b, co2 (q2_add FqFld a b) = poly_add kadd (co2 a) (co2 b)) /\
  (forall a b, co6 (q6_add FqFld a b) = poly_add (q2_add FqFld) (co6 a) (co6 b)) /\
  (forall a b, co12 (q12_add FqFld a b) = poly_add (q6_add FqFld) (co12 a) (co12 b)) /\
  (forall a b, q2_eqb FqFld a b = true <-> a = b) /\ (forall a b, q6_eqb FqFld a b = true <-> a = b) /\
  (forall a b, q12_eqb FqFld a b = true <-> a = b).
Proof. repeat split; try reflexivity; try apply q2_eqb_eq; try apply q6_eqb_eq; apply q12_eqb_eq. Qed.
(** With the [square] of Fq as written (C02), [Fq2::square] is the product when neither coefficient
    loses a carry, and is not in general. *)
Theorem C14_fq2_square_limbs_when_exact x y a b : represents Q_MOD x a -> represents Q_MOD y b ->
  drops_carry x = false -> drops_carry y = false ->
  fq2_square_limbs (x, y) = fq2_mul_limbs (x, y) (x, y).
Proof.
  intros H1 H2 N1 N2. unfold fq2_square_limbs, fq2_mul_limbs. assert (BF : bn_field fq Q_MOD) by (right; auto).
  assert (S1 : fsquare fq x = fmul fq x x) by exact (proj2 (proj1 (C02_square fq Q_MOD x a BF H1)) N1).
  assert (S2 : fsquare fq y = fmul fq y y) by exact (proj2 (proj1 (C02_square fq Q_MOD y b BF H2)) N2).
  rewrite S1, S2. apply f_equal2; [reflexivity|].
  pose proof (C02_mul fq Q_MOD x y a b BF H1 H2) as M1. pose proof (C02_mul fq Q_MOD y x b a BF H2 H1) as M2.
  pose proof (C01_double fq Q_MOD _ _ BF M1) as D. pose proof (C01_add fq Q_MOD _ _ _ _ BF M1 M2) as A.
  pose proof (proj1 (C01_eq fq Q_MOD _ _ _ _ BF D A)) as [_ E]. apply eqb4_eq. apply E.
  rewrite (Z.mul_comm b a). f_equal. ring.
Qed.
Theorem C14_fq2_square_refuted : exists x y, reduced Q_MOD x /\ reduced Q_MOD y /\
  fq2_square_limbs (x, y) <> fq2_mul_limbs (x, y) (x, y).
Proof.
  exists bad, fzero. split; [exact (bad_reduced_in fq Q_MOD (or_intror (conj eq_refl eq_refl)))|].
  split; [unfold reduced, limbs_ok, limb_ok; vm_compute; intuition congruence|].
  intros E. vm_compute in E. discriminate E.
Qed.
(** (1 + 2u)(3 + u) = 1 + 7u, and (1 + v) v^2 = xi + v^2. *)
Example C14_example :
  q2_mul FqFld (Q2 (fq_mk 1) (fq_mk 2)) (Q2 (fq_mk 3) (fq_mk 1)) = Q2 (fq_mk 1) (fq_mk 7) /\
  q6_mul FqFld (Q6 (q2_1 FqFld) (q2_1 FqFld) (q2_0 FqFld)) (Q6 (q2_0 FqFld) (q2_0 FqFld) (q2_1 FqFld)) = Q6 (Q2 (fq_mk 9) (fq_mk 1)) (q2_0 FqFld) (q2_1 FqFld).
Proof. split; [apply q2_eqb_eq|apply q6_eqb_eq]; vm_compute; reflexivity. Qed.

(** ** C15: inversion *)
Theorem C15_inversion :
  (forall a, (q2_invert_full FqFld a = Some None <-> a = q2_0 FqFld) /\
     (a <> q2_0 FqFld -> exists b, q2_invert_full FqFld a = Some (Some b) /\ q2_mul FqFld a b = q2_1 FqFld)) /\
  (forall a, (q6_invert FqFld a = None <-> a = q6_0 FqFld) /\
     (a <> q6_0 FqFld -> exists b, q6_invert FqFld a = Some b /\ q6_mul FqFld a b = q6_1 FqFld)) /\
  (forall a, (q12_invert FqFld a = None <-> a = q12_0 FqFld) /\
     (a <> q12_0 FqFld -> exists b, q12_invert FqFld a = Some b /\ q12_mul FqFld a b = q12_1 FqFld)).
Proof.
  split; [|split]; intros a.
  - destruct (q2_invert_full_spec FqFld fq_anisotropic a) as [A C]. split.
    + split; [|exact A]. intros H. destruct (q2_is0 FqFld a) eqn:E; [apply q2_is0_eq, E|].
      rewrite C in H; [discriminate|]. intros Z. apply q2_is0_eq in Z. congruence.
    + intros N. eexists. split; [apply C, N|]. rewrite <- (q2_inv_l FqFld fq_anisotropic a N). ring.
  - destruct (q6_invert_spec FqFld fq_anisotropic xi_not_cube a) as [A C]. split.
    + split; [|exact A]. intros H. destruct (q6_is0 FqFld a) eqn:E; [apply q6_is0_eq, E|].
      rewrite C in H; [discriminate|]. intros Z. apply q6_is0_eq in Z. congruence.
    + intros N. eexists. split; [apply C, N|]. rewrite <- (q6_inv_l FqFld fq_anisotropic xi_not_cube a N). ring.
  - destruct (q12_invert_spec FqFld fq_anisotropic xi_not_cube v_not_square a) as [A C]. split.
    + split; [|exact A]. intros H. destruct (q12_is0 FqFld a) eqn:E; [apply q12_is0_eq, E|].
      rewrite C in H; [discriminate|]. intros Z. apply q12_is0_eq in Z. congruence.
    + intros N. eexists. split; [apply C, N|]. rewrite <- (q12_inv_l FqFld fq_anisotropic xi_not_cube v_not_square a N). ring.
Qed.
(** The norms: none vanishes on a non-zero element. *)
Theorem C15_no_zero_divisors :
  (forall a b, q2_mul FqFld a b = q2_0 FqFld -> a = q2_0 FqFld \/ b = q2_0 FqFld) /\
  (forall a b, q6_mul FqFld a b = q6_0 FqFld -> a = q6_0 FqFld \/ b = q6_0 FqFld) /\
  (forall a b, q12_mul FqFld a b = q12_0 FqFld -> a = q12_0 FqFld \/ b = q12_0 FqFld).
Proof. exact (conj (kmul_eq0 Fq2Fld) (conj (kmul_eq0 Fq6Fld) (kmul_eq0 Fq12Fld))). Qed.
Example C15_example : nine_plus_u <> q2_0 FqFld /\ q6_invert FqFld (q6_0 FqFld) = None.
Proof. split; [rewrite nine_xi; apply xi_neq0|apply (q6_invert_spec FqFld fq_anisotropic xi_not_cube); reflexivity]. Qed.

(** ** C16: sparse products *)
Theorem C16_sparse_products :
  (forall a c, q6_mul_by_1 FqFld a c = q6_mul FqFld a (Q6 (q2_0 FqFld) c (q2_0 FqFld))) /\
  (forall a c d, q6_mul_by_01 FqFld a c d = q6_mul FqFld a (Q6 c d (q2_0 FqFld))) /\
  (forall a c d e, q12_mul_by_034 FqFld a c d e =
     q12_mul FqFld a (Q12 (Q6 c (q2_0 FqFld) (q2_0 FqFld)) (Q6 d e (q2_0 FqFld)))).
Proof. split; [apply q6_mul_by_1_spec|]. split; [apply q6_mul_by_01_spec|apply q12_mul_by_034_spec]. Qed.
(** The line evaluation of the Miller loop: f * (y c0 + (x c1 + c2 v) w). *)
Theorem C16_untwist f a0 a1 a2 x y :
  untwist FqFld f (a0, a1, a2) x y =
  q12_mul FqFld f (Q12 (Q6 (q2_mul FqFld a0 (Q2 y k0)) (q2_0 FqFld) (q2_0 FqFld))
                       (Q6 (q2_mul FqFld a1 (Q2 x k0)) a2 (q2_0 FqFld))).
Proof.
  unfold untwist. rewrite q12_mul_by_034_spec. f_equal. f_equal; f_equal; unfold q2_scale, q2_mul; cbn [c0 c1]; apply q2_eq; cbn [c0 c1]; ring.
Qed.
Example C16_example : q6_mul_by_1 FqFld (Q6 (q2_1 FqFld) (q2_0 FqFld) (q2_1 FqFld)) (q2_1 FqFld) = Q6 nine_plus_u (q2_1 FqFld) (q2_0 FqFld).
Proof. apply q6_eqb_eq. vm_compute. reflexivity. Qed.

(** ** C17: Frobenius.  [rpow mul one a n] is a * ... * a, n factors. *)
Theorem C17_frobenius_map :
  (forall a, q2_frob FqFld a = rpow (q2_mul FqFld) (q2_1 FqFld) a (Z.to_nat Q_MOD)) /\
  (forall a, q6_frob FqFld frob_fq6_c1 frob_fq6_c2 a = rpow (q6_mul FqFld) (q6_1 FqFld) a (Z.to_nat Q_MOD)) /\
  (forall a, q12_frob FqFld frob_fq6_c1 frob_fq6_c2 frob_fq12_c1 a = rpow (q12_mul FqFld) (q12_1 FqFld) a (Z.to_nat Q_MOD)).
Proof. split; [intros a; symmetry; apply conj_pow|]. split; [apply frob6_is_pow|apply frob12_is_pow]. Qed.
Theorem C17_frobenius_maps :
  (forall a k, q2_frobs FqFld frob_fq2_c1 a k = rpow (q2_mul FqFld) (q2_1 FqFld) a (Z.to_nat Q_MOD ^ k)) /\
  (forall a k, q6_frobs FqFld frob_fq2_c1 frob_fq6_c1 frob_fq6_c2 a k = rpow (q6_mul FqFld) (q6_1 FqFld) a (Z.to_nat Q_MOD ^ k)) /\
  (forall a k, q12_frobs FqFld frob_fq2_c1 frob_fq6_c1 frob_fq6_c2 frob_fq12_c1 a k = rpow (q12_mul FqFld) (q12_1 FqFld) a (Z.to_nat Q_MOD ^ k)).
Proof. split; [apply frob2s_pow|]. split; [apply frob6s_pow|apply frob12s_pow]. Qed.
(** The coefficients are powers of the non-residue. *)
Theorem C17_first_coefficients :
  let e := Z.to_nat ((Q_MOD - 1) / 6) in let pw := rpow (q2_mul FqFld) (q2_1 FqFld) in
  nth 1 frob_fq12_c1 (q2_0 FqFld) = pw nine_plus_u e /\ nth 1 frob_fq6_c1 (q2_0 FqFld) = pw nine_plus_u (2 * e)%nat /\
  nth 1 frob_fq6_c2 (q2_0 FqFld) = pw nine_plus_u (4 * e)%nat.
Proof.
  intros e pw. assert (E : e = Pos.to_nat e6p) by (unfold e; rewrite Q_e6, Z.div_mul, Z2Nat.inj_pos by lia; reflexivity).
  unfold pw. rewrite E, nine_xi. pose proof delta_spec as D. fold t1 t2. rewrite t1_1, t2_1. unfold gamma. rewrite D.
  split; [exact D|]. split.
  - rewrite Nat.mul_comm, (rpow_mul _ _ _ _ _ _ (q2_ring FqFld)), (rpow_2 _ _ _ _ _ _ (q2_ring FqFld)). reflexivity.
  - rewrite Nat.mul_comm, (rpow_mul _ _ _ _ _ _ (q2_ring FqFld)).
    generalize (rpow (q2_mul FqFld) (q2_1 FqFld) (ExtProofs.xi FqFld) (Pos.to_nat e6p)). intros x. cbn [rpow]. ring.
Qed.
Example C17_example : q2_frob FqFld (Q2 (fq_mk 3) (fq_mk 5)) = Q2 (fq_mk 3) (fq_mk (-5)).
Proof. apply q2_eqb_eq. vm_compute. reflexivity. Qed.
