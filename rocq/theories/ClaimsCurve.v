(** Properties C18-C22 and C57: short Weierstrass points (BN254 G1 and G2, Grumpkin).
    Specification: CurveSpec.v ([on_curve], [pt_add], [pt_neg], [pt_mul], [pt_zmul]);
    [aff_pt] and [proj_pt] say which point a representation stands for. *)
From Coq Require Import ZArith List Bool Field Lia.
From Verif Require Import LimbModel LimbProofs FieldModel FieldSpec FieldProofs ClaimsField Algebra ExtModel ExtParams ExtProofs ExtFrob
  CurveSpec CurveGroup WeierModel WeierProofs GroupLib CurveAb CurveParams PairingProofs.
Import ListNotations.
Local Open Scope Z_scope.

(** The three curves meet [curve_ok], the hypothesis of the theorems below. *)
Theorem C18_curves : curve_ok FqFld g1_param_b g1_param_b3 /\ curve_ok Fq2Fld g2_param_b g2_param_b3 /\
  curve_ok FrFld grumpkin_param_b grumpkin_param_b3 /\
  g1_param_b = fq_mk 3 /\ grumpkin_param_b = fr_mk (-17) /\ q2_mul FqFld g2_param_b (Q2 (fq_mk 9) (fq_mk 1)) = Q2 (fq_mk 3) (fq_mk 0).
Proof. exact (conj g1_ok (conj g2_ok (conj grumpkin_ok (conj g1_b_value (conj grumpkin_b_value g2_b_value))))). Qed.

Section Any.
Variables (K : Fld) (b b3 : K).
Hypothesis OK : curve_ok K b b3.
Notation on := (on_curve b).
Add Field Kf : (kth K).
Let Hb3 := proj1 OK. Let two := proj1 (proj2 OK). Let three := proj1 (proj2 (proj2 OK)). Let bnz := proj2 (proj2 (proj2 OK)).

(** ** C18 *)
Theorem C18_addition_and_doubling :
  (forall p q, on (aff_pt K p) -> on (aff_pt K q) -> proj_pt K (aff_add K b3 p q) = pt_add (aff_pt K p) (aff_pt K q)) /\
  (forall p q, on (proj_pt K p) -> on (proj_pt K q) -> proj_pt K (proj_add K b3 p q) = pt_add (proj_pt K p) (proj_pt K q)) /\
  (forall p q, on (aff_pt K p) -> on (proj_pt K q) -> proj_pt K (aff_add_proj K b3 p q) = pt_add (aff_pt K p) (proj_pt K q)) /\
  (forall p q, on (proj_pt K p) -> on (aff_pt K q) -> proj_pt K (proj_add_aff K b3 p q) = pt_add (proj_pt K p) (aff_pt K q)) /\
  (forall p, on (proj_pt K p) -> proj_pt K (double_projective_point K b3 p) = pt_add (proj_pt K p) (proj_pt K p)) /\
  (forall p, aff_is_identity K p = false -> on (aff_pt K p) -> proj_pt K (double_affine_point K b3 p) = pt_add (aff_pt K p) (aff_pt K p)).
Proof.
  repeat split; intros.
  - apply (add_aff_ok K b b3 Hb3 two); assumption.
  - apply (add_proj_ok K b b3 Hb3 two); assumption.
  - apply (add_mixed_ok K b b3 Hb3 two); assumption.
  - unfold proj_add_aff. rewrite (add_mixed_ok K b b3 Hb3 two) by assumption. apply (add_comm K b two three bnz); assumption.
  - apply (double_proj_ok K b b3 Hb3 two); assumption.
  - apply (double_aff_ok K b b3 Hb3 two); assumption.
Qed.
Theorem C18_negation_and_subtraction :
  (forall p, aff_pt K (aff_neg K p) = pt_neg (aff_pt K p)) /\
  (forall p, proj_pt K (proj_neg K p) = pt_neg (proj_pt K p)) /\
  (forall p q, on (aff_pt K p) -> on (aff_pt K q) -> proj_pt K (aff_sub K b3 p q) = pt_add (aff_pt K p) (pt_neg (aff_pt K q))) /\
  (forall p q, on (proj_pt K p) -> on (proj_pt K q) -> proj_pt K (proj_sub K b3 p q) = pt_add (proj_pt K p) (pt_neg (proj_pt K q))) /\
  (forall p q, on (aff_pt K p) -> on (proj_pt K q) -> proj_pt K (aff_sub_proj K b3 p q) = pt_add (aff_pt K p) (pt_neg (proj_pt K q))) /\
  (forall p q, on (proj_pt K p) -> on (aff_pt K q) -> proj_pt K (proj_sub_aff K b3 p q) = pt_add (proj_pt K p) (pt_neg (aff_pt K q))).
Proof.
  repeat split; intros.
  - apply neg_aff_ok.
  - apply neg_proj_ok.
  - unfold aff_sub. rewrite (add_aff_ok K b b3 Hb3 two), neg_aff_ok; [reflexivity|assumption|]. rewrite neg_aff_ok. apply on_neg. assumption.
  - unfold proj_sub. rewrite (add_proj_ok K b b3 Hb3 two), neg_proj_ok; [reflexivity|assumption|]. rewrite neg_proj_ok. apply on_neg. assumption.
  - unfold aff_sub_proj. rewrite (add_mixed_ok K b b3 Hb3 two), neg_proj_ok; [reflexivity|assumption|]. rewrite neg_proj_ok. apply on_neg. assumption.
  - unfold proj_sub_aff. rewrite (add_mixed_ok K b b3 Hb3 two), neg_aff_ok; [|rewrite neg_aff_ok; apply on_neg; assumption|assumption].
    apply (add_comm K b two three bnz); [apply on_neg|]; assumption.
Qed.
(** Sums of curve points are curve points. *)
Theorem C18_closed P Q : on P -> on Q -> on (pt_add P Q) /\ on (pt_neg P).
Proof. intros HP HQ. split; [apply (add_on K b two three bnz); assumption|apply on_neg; assumption]. Qed.
(** The affine [double()] of the identity is a finite point. *)
Theorem C18_double_of_affine_identity_refuted :
  aff_pt K (aff_identity K) = Inf /\ proj_pt K (double_affine_point K b3 (aff_identity K)) <> pt_add Inf Inf.
Proof.
  split; [reflexivity|]. unfold double_affine_point, aff_identity. cbn [ax ay]. cbv zeta. rewrite proj_pt_fin; [discriminate|].
  intros E. apply (eight K two k1 (k1_neq0 K)). rewrite <- E. unfold kdbl, ksq.
  ring.
Qed.

(** ** C19 *)
Theorem C19_equality :
  (forall p q, proj_eqb K p q = true <-> proj_pt K p = proj_pt K q) /\ (forall p q, aff_eqb K p q = true <-> aff_pt K p = aff_pt K q).
Proof. split; [apply proj_eqb_ok|apply aff_eqb_ok]. Qed.
Theorem C19_equivalence :
  (forall p, proj_eqb K p p = true) /\ (forall p q, proj_eqb K p q = proj_eqb K q p) /\
  (forall p q r, proj_eqb K p q = true -> proj_eqb K q r = true -> proj_eqb K p r = true).
Proof.
  split; [|split].
  - intros p. apply proj_eqb_ok. reflexivity.
  - intros p q. apply Bool.eq_iff_eq_true. rewrite !proj_eqb_ok. split; congruence.
  - intros p q r. rewrite !proj_eqb_ok. congruence.
Qed.
Theorem C19_conversions :
  (forall p, proj_pt K (to_extended K p) = aff_pt K p) /\ (forall p, aff_pt K (to_affine K p) = proj_pt K p) /\
  (forall p, aff_eqb K (to_affine K (to_extended K p)) p = true) /\ (forall p, proj_eqb K (to_extended K (to_affine K p)) p = true).
Proof.
  split; [apply to_extended_ok|]. split; [apply to_affine_ok|]. split; intros p.
  - apply aff_eqb_ok. rewrite to_affine_ok. apply to_extended_ok.
  - apply proj_eqb_ok. rewrite to_extended_ok. apply to_affine_ok.
Qed.
Theorem C19_is_on_curve :
  (forall p, proj_is_on_curve K b p = true <-> on (proj_pt K p)) /\ (forall p, aff_is_on_curve K b p = true <-> on (aff_pt K p)) /\
  (forall p, proj_is_identity K p = true <-> proj_pt K p = Inf) /\ (forall p, aff_is_identity K p = true <-> aff_pt K p = Inf).
Proof.
  split; [apply proj_on_ok|]. split; [apply aff_on_ok|]. split.
  - intros p. unfold proj_is_identity, proj_pt. destruct (keqb (jz p) k0); split; congruence.
  - intros p. unfold aff_is_identity, aff_pt. destruct (ainf p); split; congruence.
Qed.
Theorem C19_batch_normalize ps qs : length ps = length qs ->
  exists rs, batch_normalize K ps qs = Some rs /\ map (aff_pt K) rs = map (proj_pt K) ps.
Proof.
  intros E. unfold batch_normalize. rewrite (proj2 (Nat.eqb_eq _ _) E). eexists; split; [reflexivity|].
  rewrite map_map. apply map_ext. intros p. apply to_affine_ok.
Qed.
(** [Group::invert] is negation except that the identity has none. *)
Theorem C19_invert :
  (forall p, proj_pt K p <> Inf -> exists q, proj_invert K p = Some q /\ proj_pt K q = pt_neg (proj_pt K p)) /\
  (forall p, aff_pt K p <> Inf -> exists q, aff_invert K p = Some q /\ aff_pt K q = pt_neg (aff_pt K p)) /\
  (forall p, proj_pt K p = Inf -> proj_invert K p = None) /\ (forall p, aff_pt K p = Inf -> aff_invert K p = None).
Proof.
  split; [|split; [|split]].
  - intros p H. unfold proj_invert, kis0. unfold proj_pt in H. destruct (keqb (jz p) k0) eqn:E; [congruence|].
    eexists; split; [reflexivity|]. rewrite <- neg_proj_ok. reflexivity.
  - intros p H. unfold aff_invert. unfold aff_pt in H. destruct (ainf p) eqn:E; [congruence|].
    eexists; split; [reflexivity|]. rewrite <- neg_aff_ok. unfold aff_neg. rewrite E. reflexivity.
  - intros p H. unfold proj_invert, kis0. unfold proj_pt in H. destruct (keqb (jz p) k0); [reflexivity|discriminate].
  - intros p H. unfold aff_invert. unfold aff_pt in H. destruct (ainf p); [reflexivity|discriminate].
Qed.

(** ** C20 *)
Theorem C20_commutative_group :
  (forall P Q R, on P -> on Q -> on R -> pt_add (pt_add P Q) R = pt_add P (pt_add Q R)) /\
  (forall P Q, on P -> on Q -> pt_add P Q = pt_add Q P) /\
  (forall P : point K, pt_add P Inf = P) /\ (forall P : point K, pt_add P (pt_neg P) = Inf).
Proof.
  split; [intros; apply (add_assoc K b two three bnz); assumption|]. split; [intros; apply (add_comm K b two three bnz); assumption|].
  split; [apply add_inf_r|apply add_neg].
Qed.
(** The same through the operators and [==]. *)
Theorem C20_operators p q r : proj_is_on_curve K b p = true -> proj_is_on_curve K b q = true -> proj_is_on_curve K b r = true ->
  proj_eqb K (proj_add K b3 (proj_add K b3 p q) r) (proj_add K b3 p (proj_add K b3 q r)) = true /\
  proj_eqb K (proj_add K b3 p q) (proj_add K b3 q p) = true /\
  proj_eqb K (proj_add K b3 p (proj_identity K)) p = true /\
  proj_eqb K (proj_sub K b3 p p) (proj_identity K) = true /\
  proj_is_on_curve K b (proj_add K b3 p q) = true.
Proof.
  rewrite !(proj_on_ok K b). intros HP HQ HR. rewrite !proj_eqb_ok.
  assert (A : forall p q, on (proj_pt K p) -> on (proj_pt K q) -> proj_pt K (proj_add K b3 p q) = pt_add (proj_pt K p) (proj_pt K q))
    by (intros; apply (add_proj_ok K b b3 Hb3 two); assumption).
  assert (C : forall P Q, on P -> on Q -> on (pt_add P Q)) by (intros; apply (add_on K b two three bnz); assumption).
  assert (HPQ : on (proj_pt K (proj_add K b3 p q))) by (rewrite A by assumption; apply C; assumption).
  assert (HQR : on (proj_pt K (proj_add K b3 q r))) by (rewrite A by assumption; apply C; assumption).
  repeat split.
  - rewrite (A _ r HPQ HR), (A p _ HP HQR), (A p q HP HQ), (A q r HQ HR). apply (add_assoc K b two three bnz); assumption.
  - rewrite !A by assumption. apply (add_comm K b two three bnz); assumption.
  - rewrite A, identity_pt; [apply add_inf_r|exact HP|rewrite identity_pt; exact I].
  - unfold proj_sub. fold (proj_add K b3). rewrite A, neg_proj_ok, identity_pt; [apply add_neg|exact HP|]. rewrite neg_proj_ok. apply on_neg, HP.
  - exact HPQ.
Qed.

(** ** C21 *)
(** The scalar is an element [a] of Fr or Fq (modulus [m]) standing for the integer [k]. *)
Theorem C21_scalar_multiplication P m a k p : bn_field P m -> represents m a k -> on (proj_pt K p) ->
  exists q, scalar_point K b3 P p a = Some q /\ proj_pt K q = pt_mul (Z.to_nat k) (proj_pt K p) /\ on (proj_pt K q).
Proof.
  intros F H HP. destruct (C08_to_nafs P m a k F H) as (ds & E & V & _). unfold scalar_point. rewrite E.
  eexists; split; [reflexivity|].
  pose proof (reps_scalar K b b3 Hb3 two three bnz p (cmk K b _ HP) ds eq_refl) as R. unfold reps in R.
  rewrite V, cval_zmul in R. rewrite R. unfold pt_zmul.
  assert (Hk : k <? 0 = false). { apply Z.ltb_ge. destruct H as (_ & H & _). lia. }
  rewrite Hk. split; [reflexivity|].
  assert (M : forall n P, on P -> on (pt_mul n P)).
  { intros n P0 H0. induction n as [|n IH]; [exact I|]. cbn. apply (add_on K b two three bnz); assumption. }
  apply M, HP.
Qed.
Theorem C21_affine_scalar_multiplication P m a k p : bn_field P m -> represents m a k -> on (aff_pt K p) ->
  exists q, aff_mul K b3 P p a = Some q /\ proj_pt K q = pt_mul (Z.to_nat k) (aff_pt K p).
Proof.
  intros F H HP. rewrite <- to_extended_ok in HP |- *. destruct (C21_scalar_multiplication P m a k _ F H HP) as (q & E & V & _).
  exists q. split; [exact E|exact V].
Qed.
(** Multiples are additive in the integer, so that on points killed by [m] (such as the groups of
    order [m]) the product only depends on the residue and [P * (a + b) = P * a + P * b]. *)
Theorem C21_multiples_add i j P : on P -> pt_mul (i + j) P = pt_add (pt_mul i P) (pt_mul j P).
Proof.
  intros H. pose proof (nmul_add (cgrp K b two three bnz) i j (cmk K b P H)) as E. apply (f_equal (@cval K b)) in E.
  rewrite cval_add, !cval_nmul in E. exact E.
Qed.
Theorem C21_distributes P m a c ka kc p : bn_field P m -> represents m a ka -> represents m c kc -> on (proj_pt K p) ->
  pt_mul (Z.to_nat m) (proj_pt K p) = Inf ->
  exists q qa qc, scalar_point K b3 P p (fadd P a c) = Some q /\ scalar_point K b3 P p a = Some qa /\ scalar_point K b3 P p c = Some qc /\
    proj_pt K q = pt_add (proj_pt K qa) (proj_pt K qc).
Proof.
  intros F HA HC HP O. assert (M1 : 1 < m) by (destruct F as [[_ ->]|[_ ->]]; vm_compute; reflexivity).
  assert (HS : represents m (fadd P a c) ((ka + kc) mod m)) by (apply (C01_add P m); assumption).
  destruct (C21_scalar_multiplication P m _ _ p F HS HP) as (q & E & V & _).
  destruct (C21_scalar_multiplication P m _ _ p F HA HP) as (qa & Ea & Va & _).
  destruct (C21_scalar_multiplication P m _ _ p F HC HP) as (qc & Ec & Vc & _).
  exists q, qa, qc. repeat split; try assumption. rewrite V, Va, Vc, <- C21_multiples_add by exact HP.
  destruct HA as (_ & RA & _), HC as (_ & RC & _).
  set (G := cgrp K b two three bnz). set (g := cmk K b _ HP : G).
  assert (Z0 : zmul m g = a0).
  { apply cpt_eq. rewrite (cval_zmul K b two three bnz m g : cval K b (zmul m g) = _). unfold pt_zmul. destruct (Z.ltb_spec m 0); [lia|]. exact O. }
  pose proof (zmul_mod G m (ka + kc) g Z0) as E2. apply (f_equal (@cval K b)) in E2. unfold G in E2. rewrite !(cval_zmul K b two three bnz) in E2. unfold pt_zmul in E2.
  pose proof (Z.mod_pos_bound (ka + kc) m ltac:(lia)).
  destruct (Z.ltb_spec ((ka + kc) mod m) 0); [lia|]. destruct (Z.ltb_spec (ka + kc) 0); [lia|].
  rewrite Z2Nat.inj_add in E2 by lia. exact E2.
Qed.

(** ** C22 *)
Theorem C22_reference_forms p q (pa qa : aff K) :
  aff_add_ref K b3 pa qa = aff_add K b3 pa qa /\ aff_sub_ref K b3 pa qa = aff_sub K b3 pa qa /\
  proj_add_ref K b3 p q = proj_add K b3 p q /\ proj_sub_ref K b3 p q = proj_sub K b3 p q /\
  aff_add_proj_ref K b3 pa q = aff_add_proj K b3 pa q /\ proj_add_aff_ref K b3 p qa = proj_add_aff K b3 p qa /\
  proj_sub_aff_ref K b3 p qa = proj_sub_aff K b3 p qa /\
  proj_add_assign_aff K b3 p qa = proj_add_aff K b3 p qa /\ proj_sub_assign_aff K b3 p qa = proj_sub_aff K b3 p qa /\
  proj_add_assign K b3 p q = proj_add K b3 p q /\ proj_sub_assign K b3 p q = proj_sub K b3 p q.
Proof. repeat split. Qed.
(** [&affine - &projective] adds. *)
Theorem C22_affine_minus_projective_adds p q : on (aff_pt K p) -> on (proj_pt K q) ->
  proj_pt K (aff_sub_proj_ref K b3 p q) = pt_add (aff_pt K p) (proj_pt K q).
Proof. intros HP HQ. apply (add_mixed_ok K b b3 Hb3 two); assumption. Qed.

(** ** C57 *)
(** [mul_by_x] of G1 and G2 multiplies by -(BN_X - 1), not by the curve parameter BN_X: the lowest
    bit is skipped and the sign flag is set.  It would be right only on points killed by 2*BN_X - 1. *)
Theorem C57_mul_by_x p : on (proj_pt K p) ->
  proj_pt K (mul_by_x K b3 BN_X BN_X_IS_NEGATIVE p) = pt_neg (pt_mul (Z.to_nat (BN_X - 1)) (proj_pt K p)).
Proof.
  intros HP. pose proof (reps_mul_by_x K b b3 Hb3 two three bnz p (cmk K b _ HP) BN_X BN_X_IS_NEGATIVE eq_refl) as R.
  specialize (R ltac:(split; vm_compute; [discriminate|reflexivity])). unfold reps in R. rewrite cval_zmul in R.
  assert (E : (if BN_X_IS_NEGATIVE then -1 else 1) * (BN_X - BN_X mod 2) = - (BN_X - 1)) by reflexivity. rewrite E in R.
  rewrite R. assert (P0 : 0 < BN_X - 1) by reflexivity. clear - P0. change (cval K b (cmk K b (proj_pt K p) HP)) with (proj_pt K p).
  revert P0. generalize (BN_X - 1) (proj_pt K p). intros n Q Hn. unfold pt_zmul. destruct (Z.ltb_spec (- n) 0); [|lia].
  rewrite Z.opp_involutive. reflexivity.
Qed.
Theorem C57_mul_by_x_right_iff p : on (proj_pt K p) ->
  (proj_pt K (mul_by_x K b3 BN_X BN_X_IS_NEGATIVE p) = pt_mul (Z.to_nat BN_X) (proj_pt K p) <->
   pt_mul (Z.to_nat (2 * BN_X - 1)) (proj_pt K p) = Inf).
Proof.
  intros HP. rewrite (C57_mul_by_x p HP).
  replace (Z.to_nat (2 * BN_X - 1)) with (Z.to_nat (BN_X - 1) + Z.to_nat BN_X)%nat by (rewrite <- Z2Nat.inj_add by (vm_compute; discriminate); reflexivity).
  rewrite C21_multiples_add by exact HP. generalize (Z.to_nat (BN_X - 1)) (Z.to_nat BN_X). intros i j.
  set (G := cgrp K b two three bnz). set (g := cmk K b _ HP : G).
  change (proj_pt K p) with (cval K b g). rewrite <- !(cval_nmul K b two three bnz). fold G.
  rewrite <- (cval_neg K b two three bnz), <- (cval_add K b two three bnz). change (@Inf K) with (cval K b (a0 : G)).
  split; intros H.
  - apply cpt_eq in H. rewrite <- H. rewrite ainv. reflexivity.
  - apply cpt_eq in H. apply f_equal. apply (acancel G (nmul i g)). rewrite ainv. symmetry. exact H.
Qed.
End Any.

(** ** Concrete cases *)
Definition g1_G : aff FqFld := Aff g1_generator_x g1_generator_y false.
Definition g1_2G := double_affine_point FqFld g1_param_b3 g1_G.
(** [2 G] is a point with z other than 1, so that the formulas above are met on a non-trivial case. *)
Example C18_case : on_curve g1_param_b (aff_pt FqFld g1_G) /\ on_curve g1_param_b (proj_pt FqFld g1_2G) /\ proj_is_identity FqFld g1_2G = false /\ jz g1_2G <> k1 /\ proj_pt FqFld (aff_add_proj FqFld g1_param_b3 g1_G g1_2G) = pt_add (aff_pt FqFld g1_G) (pt_add (aff_pt FqFld g1_G) (aff_pt FqFld g1_G)).
Proof.
  assert (H1 : on_curve g1_param_b (aff_pt FqFld g1_G)) by exact g1_generator_on.
  assert (E2 : proj_pt FqFld g1_2G = pt_add (aff_pt FqFld g1_G) (aff_pt FqFld g1_G))
    by (apply (C18_addition_and_doubling FqFld g1_param_b g1_param_b3 g1_ok); [reflexivity|exact H1]).
  assert (H2 : on_curve g1_param_b (proj_pt FqFld g1_2G))
    by (rewrite E2; exact (proj1 (C18_closed FqFld g1_param_b g1_param_b3 g1_ok _ _ H1 H1))).
  split; [exact H1|]. split; [exact H2|]. split; [vm_compute; reflexivity|]. split; [apply keqb_neq; vm_compute; reflexivity|].
  rewrite <- E2. exact (proj1 (proj2 (proj2 (C18_addition_and_doubling FqFld g1_param_b g1_param_b3 g1_ok))) _ _ H1 H2).
Qed.
Example C21_case : exists q, scalar_point FqFld g1_param_b3 fr g1_2G (ffrom_u64 fr 5) = Some q /\ proj_pt FqFld q = pt_mul 5 (proj_pt FqFld g1_2G).
Proof.
  destruct (C21_scalar_multiplication FqFld g1_param_b g1_param_b3 g1_ok fr R_MOD (ffrom_u64 fr 5) 5 g1_2G) as (q & E & V & _).
  - left. split; reflexivity.
  - exact (proj1 C01_example).
  - exact (proj1 (proj2 C18_case)).
  - exists q. split; [exact E|exact V].
Qed.
(** [&G - &G] is not the identity, while [G - G] is. *)
Theorem C22_affine_minus_projective_refuted :
  proj_is_identity FqFld (aff_sub_proj_ref FqFld g1_param_b3 g1_G (to_extended FqFld g1_G)) = false /\
  proj_is_identity FqFld (aff_sub_proj FqFld g1_param_b3 g1_G (to_extended FqFld g1_G)) = true.
Proof. split; vm_compute; reflexivity. Qed.
Example C18_generators : on_curve g1_param_b (Pt g1_generator_x g1_generator_y) /\
  on_curve (K := Fq2Fld) g2_param_b (Pt (K := Fq2Fld) g2_generator_x g2_generator_y) /\
  on_curve grumpkin_param_b (Pt grumpkin_generator_x grumpkin_generator_y).
Proof. exact (conj g1_generator_on (conj g2_generator_on grumpkin_generator_on)). Qed.
