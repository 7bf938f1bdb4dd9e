(** C64: the subgroup checks of G1 and G2. *)
From Coq Require Import ZArith List Bool Lia.
From Verif Require Import LimbModel FieldModel FieldSpec Algebra ExtModel ExtParams ExtFrob
  PairingModel CurveSpec GroupLib CurveAb WeierModel WeierProofs CurveParams ClaimsCurve ClaimsOrder G2Order ClaimsBilinear TorsionModel TorsionProofs.
Import ListNotations.
Local Open Scope Z_scope.
Notation g1_aff_pt := (aff_pt FqFld).
Notation g2_aff_pt := (aff_pt Fq2Fld).

(** A literal above the modulus acts in a product as the element [fq_literal]; the literals of both
    checks are such. *)
Theorem C64_literals :
  (forall (x : FqFld) c, limbs_ok c -> fmul fq (lf_limbs Q_MOD x) c = lf_limbs Q_MOD (kmul x (fq_literal c))) /\
  Forall (fun c => limbs_ok c /\ Q_MOD <= limb_value c) [BETA_limbs; psi_coeff_x_limbs; psi_coeff_y0_limbs; psi_coeff_y1_limbs].
Proof.
  split; [intros x c H; exact (proj1 (fq_literal_mul x c H))|].
  repeat constructor; try (vm_compute; discriminate).
Qed.

(** BETA is not a cube root of one, and [endomorphism] takes no finite point of G1 to G1. *)
Theorem C64_endomorphism_refuted :
  kmul (kmul BETA BETA) BETA <> k1 /\
  forall p, on_curve g1_param_b (g1_aff_pt p) -> g1_aff_pt p <> Inf -> ~ on_curve g1_param_b (g1_aff_pt (endomorphism p)).
Proof.
  split; [apply keqb_neq; vm_compute; reflexivity|]. intros [x y []]; [intros _ N; destruct (N eq_refl)|].
  intros H _. exact (endomorphism_off x y H).
Qed.

(** On curve points [mul_by_x] and negation stay on the curve. *)
Lemma mul_pt_on (K : Fld) (b b3 : K) (OK : curve_ok K b b3) n P : on_curve b P -> on_curve b (pt_mul n P).
Proof. intros H. induction n as [|n IH]; [exact I|]. exact (proj1 (C18_closed K b b3 OK _ _ H IH)). Qed.
Lemma mul_by_x_on (K : Fld) (b b3 : K) (OK : curve_ok K b b3) p : on_curve b (proj_pt K p) ->
  on_curve b (proj_pt K (mul_by_x K b3 BN_X BN_X_IS_NEGATIVE p)).
Proof.
  intros H. rewrite (C57_mul_by_x K b b3 OK p H). pose proof (mul_pt_on K b b3 OK (Z.to_nat (BN_X - 1)) _ H) as H'.
  exact (proj2 (C18_closed K b b3 OK _ _ H' H')).
Qed.
Lemma mul_by_x_inf (K : Fld) (b b3 : K) (OK : curve_ok K b b3) p : proj_pt K p = Inf ->
  proj_pt K (mul_by_x K b3 BN_X BN_X_IS_NEGATIVE p) = Inf.
Proof.
  intros H. rewrite (C57_mul_by_x K b b3 OK p ltac:(rewrite H; exact I)), H.
  assert (E : forall n, pt_mul n (Inf : point K) = Inf) by (induction n as [|n IH]; [reflexivity|exact IH]). rewrite E. reflexivity.
Qed.
Lemma proj_neg_on (K : Fld) (b b3 : K) (OK : curve_ok K b b3) p : on_curve b (proj_pt K p) -> on_curve b (proj_pt K (proj_neg K p)).
Proof. intros H. rewrite (neg_proj_ok K p). exact (proj2 (C18_closed K b b3 OK _ _ H H)). Qed.

(** The check of G1, on every point of the curve: it accepts the identity and nothing else. *)
Theorem C64_g1_check p : on_curve g1_param_b (g1_aff_pt p) -> (g1_is_torsion_free p = true <-> g1_aff_pt p = Inf).
Proof.
  intros H. unfold g1_is_torsion_free. cbv zeta. rewrite (proj1 (C19_equality FqFld)), to_extended_ok.
  set (q := to_extended FqFld p). assert (Eq : proj_pt FqFld q = g1_aff_pt p) by apply to_extended_ok.
  assert (Hq : on_curve g1_param_b (proj_pt FqFld q)) by (rewrite Eq; exact H).
  split.
  - intros E. destruct (g1_aff_pt p) as [|x y] eqn:EP; [reflexivity|exfalso].
    apply (proj2 C64_endomorphism_refuted p); [rewrite EP; exact H|rewrite EP; discriminate|]. rewrite <- E.
    apply (proj_neg_on _ _ _ g1_ok), (mul_by_x_on _ _ _ g1_ok), (mul_by_x_on _ _ _ g1_ok), Hq.
  - intros E. rewrite (neg_proj_ok FqFld), (mul_by_x_inf _ _ _ g1_ok _ (mul_by_x_inf _ _ _ g1_ok q ltac:(rewrite Eq; exact E))).
    destruct p as [x y []]; [reflexivity|discriminate E].
Qed.
(** So every finite point of G1 is rejected, although the curve has prime order and each is in the subgroup. *)
Theorem C64_g1_refuted p : on_curve g1_param_b (g1_aff_pt p) -> g1_aff_pt p <> Inf ->
  pt_mul (Z.to_nat R_MOD) (g1_aff_pt p) = Inf /\ g1_is_torsion_free p = false.
Proof.
  intros H N. split; [exact (C60_g1_order _ H)|]. destruct (g1_is_torsion_free p) eqn:E; [|reflexivity].
  destruct (N (proj1 (C64_g1_check p H) E)).
Qed.

(** [psi] takes no finite point of the twist to the twist. *)
Theorem C64_psi_refuted p : on_curve (K := Fq2Fld) g2_param_b (proj_pt Fq2Fld p) -> proj_pt Fq2Fld p <> Inf ->
  ~ on_curve (K := Fq2Fld) g2_param_b (proj_pt Fq2Fld (psi p)).
Proof. rewrite psi_pt. destruct (proj_pt Fq2Fld p) as [|x y]; [intros _ N; destruct (N eq_refl)|]. intros H _. exact (psi_off x y H). Qed.
(** The check of G2, on every point of the twist, in the subgroup or not: it accepts the identity and nothing else. *)
Theorem C64_g2_check p : on_curve (K := Fq2Fld) g2_param_b (g2_aff_pt p) -> (g2_is_torsion_free p = true <-> g2_aff_pt p = Inf).
Proof.
  intros H. unfold g2_is_torsion_free. cbv zeta. rewrite (proj1 (C19_equality Fq2Fld)).
  set (q := to_extended Fq2Fld p). assert (Eq : proj_pt Fq2Fld q = g2_aff_pt p) by apply to_extended_ok.
  assert (Hq : on_curve (K := Fq2Fld) g2_param_b (proj_pt Fq2Fld q)) by (rewrite Eq; exact H).
  split.
  - intros E. destruct (g2_aff_pt p) as [|x y] eqn:EP; [reflexivity|exfalso].
    apply (C64_psi_refuted q Hq); [rewrite Eq; discriminate|]. rewrite E. apply (mul_by_x_on _ _ _ g2_ok), Hq.
  - intros E. rewrite (mul_by_x_inf _ _ _ g2_ok q ltac:(rewrite Eq; exact E)), psi_pt, Eq, E. reflexivity.
Qed.
(** So every finite multiple of the G2 generator is in the subgroup of order [R_MOD] and is rejected. *)
Theorem C64_g2_refuted k p : ~ (R_MOD | k) -> g2_aff_pt p = pt_zmul k g2_base ->
  pt_zmul R_MOD (g2_aff_pt p) = Inf /\ g2_aff_pt p <> Inf /\ g2_is_torsion_free p = false.
Proof.
  intros N E. pose proof (cval_zmul Fq2Fld g2_param_b g2_two g2_three g2_bnz) as CZ.
  assert (Ek : pt_zmul k g2_base = cval _ _ (zmul k g2_gen)) by (rewrite CZ; reflexivity).
  assert (NI : g2_aff_pt p <> Inf) by (rewrite E; intros Z; apply N, C62_g2_generator_order, Z).
  split; [|split; [exact NI|]].
  - rewrite E, Ek, <- CZ, <- zmul_mul, Z.mul_comm, zmul_mul. rewrite (proj2 (g2_gen_order R_MOD) (Z.divide_refl _)), zmul_a0. reflexivity.
  - destruct (g2_is_torsion_free p) eqn:T; [|reflexivity]. destruct NI. apply C64_g2_check; [|exact T].
    rewrite E, Ek. apply cval_on.
Qed.

Example C64_example :
  g1_is_torsion_free (Aff g1_generator_x g1_generator_y false) = false /\ g1_is_torsion_free (aff_identity FqFld) = true /\
  g2_is_torsion_free (Aff (F := Fq2Fld) g2_generator_x g2_generator_y false) = false /\ g2_is_torsion_free (aff_identity Fq2Fld) = true.
Proof.
  split; [exact (proj2 (C64_g1_refuted (Aff g1_generator_x g1_generator_y false) g1_generator_on ltac:(discriminate)))|]. split; [exact (proj2 (C64_g1_check (aff_identity FqFld) I) eq_refl)|].
  split; [|exact (proj2 (C64_g2_check (aff_identity Fq2Fld) I) eq_refl)].
  destruct (g2_is_torsion_free (Aff (F := Fq2Fld) g2_generator_x g2_generator_y false)) eqn:T; [|reflexivity].
  discriminate (proj1 (C64_g2_check (Aff (F := Fq2Fld) g2_generator_x g2_generator_y false) g2_generator_on) T).
Qed.
