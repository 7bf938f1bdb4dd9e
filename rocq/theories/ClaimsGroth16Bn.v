(** Property C63: Groth16 with the library's own groups and pairing; no hypothesis on them is left. *)
From Coq Require Import ZArith List Bool Lia.
From Verif Require Import LimbModel FieldModel FieldProofs FieldMore FieldSpec Algebra GroupLib ExtModel ExtParams ExtFrob CurveSpec CurveGroup CurveAb CurveParams CurveOrder
  PairingModel FinalExp PairingRefine PairingFinal PairBn G2Order PairBilin PolySpec PolyModel PolyProofs ClaimsPoly
  R1csModel R1csSpec Groth16Model Groth16Spec ClaimsGroth16 ClaimsBilinear Groth16Bn.
Import ListNotations.
Local Open Scope fld_scope.

(** The point a group element is. *)
Definition pt1 (x : gA1 bn254_groups) : point FqFld := cval FqFld g1_param_b x.
Definition pt2 (y : gA2 bn254_groups) : point Fq2Fld := cval Fq2Fld g2_param_b (g2s y).
Definition ptT (z : gAT bn254_groups) : q12 FqFld := tval z.

(** The groups are those of the library: addition of points, multiplication in the target, and the pairing. *)
Theorem C63_library_groups :
  (forall x x', pt1 (aadd x x') = pt_add (pt1 x) (pt1 x')) /\ (forall y y', pt2 (aadd y y') = pt_add (pt2 y) (pt2 y')) /\
  (forall z z', ptT (aadd z z') = q12_mul FqFld (ptT z) (ptT z')) /\
  (forall x a, pt1 (gmul1 bn254_groups x a) = pt_zmul (fr_val a) (pt1 x)) /\ (forall y a, pt2 (gmul2 bn254_groups y a) = pt_zmul (fr_val a) (pt2 y)) /\
  (forall x y P Q, pt1 x = aff1_point P -> pt2 y = aff2_point Q -> ate_pairing P Q = Some (ptT (gpair bn254_groups x y))) /\
  (forall P, in_g1 P -> exists x, pt1 x = aff1_point P) /\ (forall Q, in_g2 Q -> exists y, pt2 y = aff2_point Q) /\
  pt1 (gg1 bn254_groups) = Pt g1_generator_x g1_generator_y /\ pt2 (gg2 bn254_groups) = g2_base.
Proof.
  repeat split.
  - intros x a. exact (cval_zmul FqFld g1_param_b g1_two g1_three g1_bnz (fr_val a) x).
  - intros y a. unfold pt2. etransitivity; [apply f_equal; exact (g2s_zmul (fr_val a) y)|].
    exact (cval_zmul Fq2Fld g2_param_b g2_two g2_three g2_bnz (fr_val a) (g2s y)).
  - intros x y P Q EP EQ. exact (pairing_pexp P Q x (g2s y) EP EQ (g2s_ok y)).
  - intros P HP. exists (elt1 P HP). reflexivity.
  - intros Q HQ. destruct (elt2_ex Q HQ) as (k & a & EA & EV).
    assert (H : r1b a = true) by (apply r1b_ok; rewrite EA; apply zmul_r1). exists (submk g2_group r1b a H). exact EV.
Qed.
Theorem C63_groups : bilinear_groups bn254_groups.
Proof.
  apply bn254_groups_ok. intros E. destruct C62_generators as (e & G & N). apply N. apply some_inj. rewrite <- G.
  rewrite (pairing_pexp (Aff1 FqFld g1_generator_x g1_generator_y false) (Aff2 FqFld g2_generator_x g2_generator_y false) g1_gen g2_gen); [|reflexivity|reflexivity|exact g2_frobenius_relation].
  rewrite E. reflexivity.
Qed.
(** Completeness, zero knowledge and soundness against algebraic provers. *)
Theorem C63_completeness k cs0 alpha beta gamma delta tau cs r t :
  (1 <= k <= 28)%nat -> wf_cs cs0 -> r_m cs0 = (2 ^ k)%nat -> usable (2 ^ k) gamma delta tau ->
  wf_cs cs -> same_circuit cs0 cs -> is_sat FrFld cs = Some true ->
  exists pk vk pf, g_setup fr_two_adicity fr_root fr_gen bn254_groups cs0 alpha beta gamma delta tau = Done (pk, vk) /\
    g_prove fr_two_adicity fr_root fr_gen bn254_groups pk cs r t = Done pf /\ g_verify bn254_groups vk pf (tl (r_x cs)) = Done tt.
Proof. apply C34_completeness_bn254, C63_groups. Qed.
Theorem C63_soundness k cs0 (sA : combination1 FrFld) (sB : combination2 FrFld) (sC : combination1 FrFld) (xs As Bs Gs Ds Ts : list FrFld) :
  (1 <= k <= 28)%nat -> wf_cs cs0 -> r_m cs0 = (2 ^ k)%nat ->
  NoDup As -> NoDup Bs -> NoDup Gs -> NoDup Ds -> NoDup Ts ->
  (2 <= length As)%nat -> (3 <= length Bs)%nat -> (3 <= length Gs)%nat -> (4 <= length Ds)%nat -> (2 * 2 ^ k - 1 <= length Ts)%nat ->
  (forall gamma delta tau, In gamma Gs -> In delta Ds -> In tau Ts -> usable (2 ^ k) gamma delta tau) ->
  (forall alpha beta gamma delta tau pk vk, In alpha As -> In beta Bs -> In gamma Gs -> In delta Ds -> In tau Ts ->
     g_setup fr_two_adicity fr_root fr_gen bn254_groups cs0 alpha beta gamma delta tau = Done (pk, vk) ->
     g_verify bn254_groups vk (mkProof _ _ (combine1 bn254_groups pk sA) (combine2 bn254_groups pk sB) (combine1 bn254_groups pk sC)) xs = Done tt) ->
  exists cs, wf_cs cs /\ same_circuit cs0 cs /\ is_sat FrFld cs = Some true /\ r_x cs = 1 :: xs.
Proof.
  intros Hk W0 Hm. apply (C59_algebraic_soundness FrFld fr_two_adicity fr_root fr_gen C27_scalar_field bn254_groups C63_groups k cs0 Hk W0 Hm).
Qed.
Theorem C63_zero_knowledge k cs0 alpha beta gamma delta tau pk vk xs :
  (1 <= k <= 28)%nat -> wf_cs cs0 -> r_m cs0 = (2 ^ k)%nat ->
  g_setup fr_two_adicity fr_root fr_gen bn254_groups cs0 alpha beta gamma delta tau = Done (pk, vk) -> usable (2 ^ k) gamma delta tau ->
  exists sim : FrFld -> FrFld -> FrFld, forall cs, wf_cs cs -> same_circuit cs0 cs -> is_sat FrFld cs = Some true -> tl (r_x cs) = xs ->
    let proof x y := Done (mkProof _ _ (gmul1 bn254_groups (gg1 bn254_groups) x) (gmul2 bn254_groups (gg2 bn254_groups) y) (gmul1 bn254_groups (gg1 bn254_groups) (sim x y))) in
    (forall x y, exists r t, forall r' t', g_prove fr_two_adicity fr_root fr_gen bn254_groups pk cs r' t' = proof x y <-> r' = r /\ t' = t) /\
    (forall r t, exists x y, g_prove fr_two_adicity fr_root fr_gen bn254_groups pk cs r t = proof x y).
Proof.
  intros Hk W0 Hm. assert (Hgen : kpow fr_gen (2 ^ k) <> 1) by (apply C27_coset_disjoint; unfold fr_two_adicity; lia).
  apply (C36_zero_knowledge FrFld fr_two_adicity fr_root fr_gen C27_scalar_field bn254_groups C63_groups k cs0 Hk Hgen W0 Hm).
Qed.
(** What the verifier accepts, in values of the library's pairing. *)
Theorem C63_verify_iff vk pf xs A B C al be ga de X eAB eab eX eC :
  pt1 (pf_a _ _ pf) = aff1_point A -> pt2 (pf_b _ _ pf) = aff2_point B -> pt1 (pf_c _ _ pf) = aff1_point C ->
  pt1 (vk_alpha_g1 _ _ vk) = aff1_point al -> pt2 (vk_beta_g2 _ _ vk) = aff2_point be -> pt2 (vk_gamma_g2 _ _ vk) = aff2_point ga -> pt2 (vk_delta_g2 _ _ vk) = aff2_point de ->
  pt_sum (map (fun '(b, x) => pt_zmul (fr_val x) (pt1 b)) (combine (vk_ic _ _ vk) (1 :: xs))) = aff1_point X ->
  ate_pairing A B = Some eAB -> ate_pairing al be = Some eab -> ate_pairing X ga = Some eX -> ate_pairing C de = Some eC ->
  (g_verify bn254_groups (g_prepare bn254_groups vk) pf xs = Done tt <->
   length (vk_ic _ _ vk) = S (length xs) /\ eAB = q12_mul FqFld eab (q12_mul FqFld eX eC)).
Proof.
  intros HA HB HC Hal Hbe Hga Hde HX EAB Eab EX EC. rewrite (C35_verify_iff FrFld bn254_groups C63_groups).
  destruct C63_library_groups as (_ & _ & _ & M1 & _ & PR & _).
  set (S1 := asum _). assert (HS : pt1 S1 = aff1_point X).
  { rewrite <- HX. unfold S1, pt1. etransitivity; [exact (cval_sum FqFld g1_param_b g1_two g1_three g1_bnz _)|]. apply f_equal. rewrite map_map. apply map_ext.
    intros [b x]. exact (M1 b x). }
  rewrite (PR _ _ A B HA HB) in EAB. rewrite (PR _ _ al be Hal Hbe) in Eab. rewrite (PR _ _ X ga HS Hga) in EX. rewrite (PR _ _ C de HC Hde) in EC.
  apply some_inj in EAB, Eab, EX, EC. rewrite <- EAB, <- Eab, <- EX, <- EC. split.
  - intros [L E]. split; [exact L|]. rewrite E. reflexivity.
  - intros [L E]. split; [exact L|]. apply tval_inj. exact E.
Qed.
(** The hypotheses are met by a circuit with a satisfied instance. *)
Example C63_example : exists pk vk pf,
  g_setup fr_two_adicity fr_root fr_gen bn254_groups (fourth (fr_mk 0) (fr_mk 0) (fr_mk 0)) (fr_mk 2) (fr_mk 3) (fr_mk 5) (fr_mk 7) (fr_mk 11) = Done (pk, vk) /\
    g_prove fr_two_adicity fr_root fr_gen bn254_groups pk toy (fr_mk 13) (fr_mk 17) = Done pf /\ g_verify bn254_groups vk pf [fr_mk 81] = Done tt.
Proof.
  apply (C63_completeness 1 (fourth (fr_mk 0) (fr_mk 0) (fr_mk 0)) (fr_mk 2) (fr_mk 3) (fr_mk 5) (fr_mk 7) (fr_mk 11) toy (fr_mk 13) (fr_mk 17)).
  - lia.
  - apply fourth_wf.
  - reflexivity.
  - exact toy_usable.
  - apply fourth_wf.
  - unfold same_circuit. cbn [r_m r_a r_b r_c r_x r_w fourth toy length]. tauto.
  - apply toy_sat.
Qed.
