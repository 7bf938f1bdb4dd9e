(** Properties C52-C56: the pairing, the final exponentiation, the target group, Fq2 square roots.
    [FqFld] is Fq on Montgomery limbs, [Fq12Fld] the field built on it; specifications: [rpow]
    (repeated multiplication) and PairingSpec.v (affine chords and tangents). *)
From Coq Require Import ZArith List Bool Lia Ring.
From Verif Require Import LimbModel LimbProofs FieldModel FieldSpec FieldProofs FieldMore Primes
  Algebra ExtModel ExtSpec ExtProofs ExtParams RingPow ExtFrob FinalExp PairingModel PairingSpec PairingProofs PairingRefine PairingFinal PairingWitness.
From Verif Require Import Fq2Sqrt.
From Verif Require Import PairingModel.
Import ListNotations.
Local Open Scope Z_scope.
Local Notation F := FqFld.

(** ** C52: no panic, and several pairs multiply *)
Theorem C52_prepared_pairs_never_panic (pairs : list (affine1 F * affine2 F)) :
  exists f, ate_multi (map (fun ab => (fst ab, ate_prepare (snd ab))) pairs) = Some f.
Proof. apply prepared_total. Qed.
Theorem C52_pairs_multiply (l1 l2 : list (affine1 F * prepared F)) f1 f2 :
  ate_multi l1 = Some f1 -> ate_multi l2 = Some f2 -> ate_multi (l1 ++ l2) = Some (q12_mul F f1 f2).
Proof. intros H1 H2. unfold ate_multi in *. rewrite multi_app, H1, H2. reflexivity. Qed.
Theorem C52_identity_pairs_are_skipped a b l :
  a1inf F a = true \/ a2inf F b = true -> ate_multi ((a, ate_prepare b) :: l) = ate_multi l.
Proof.
  intros H. change (?x :: l) with ([x] ++ l). unfold ate_multi. rewrite multi_app, multi_skip.
  - destruct (multi_miller_loop F ate_digits l) as [f|]; [|reflexivity]. cbn [option_mul]. apply (f_equal Some). ring.
  - destruct H as [H|H]; [left; exact H|right]. unfold ate_prepare, prepare. rewrite H. reflexivity.
Qed.
(** Hand-made coefficient lists of another length do panic (the field [coeffs] is public). *)
Theorem C52_other_lengths_panic : exists a b, pinf F b = false /\ ate_multi [(a, b)] = None.
Proof. exists (Aff1 F k0 k0 false), (Prep F [] false). split; reflexivity. Qed.
Example C52_example : exists f, ate_multi [(Aff1 F g1_generator_x g1_generator_y false, ate_prepare (Aff2 F g2_generator_x g2_generator_y false));
  (Aff1 F k0 k1 true, ate_prepare (Aff2 F g2_generator_x g2_generator_y false))] = Some f.
Proof. exact (C52_prepared_pairs_never_panic [(Aff1 F g1_generator_x g1_generator_y false, Aff2 F g2_generator_x g2_generator_y false); (Aff1 F k0 k1 true, Aff2 F g2_generator_x g2_generator_y false)]). Qed.

(** ** C53: the pairing is the textbook optimal ate pairing *)
(** [P] = (px, py) and [Q] = (gx, gy) are untwisted to (px, py), (gx w^2, gy w^3) in Fq12, where
    Fq12 = Fq6(w); [optimal_ate] is defined when no line is vertical.  [ds] ranges over all digit
    lists; the code's digits are [ate_digits]. *)
Theorem C53_pairing_is_optimal_ate ds px py gx gy f : py <> k0 ->
  optimal_ate Fq12Fld (fun a => rpow (q12_mul F) (q12_1 F) a (Z.to_nat Q_MOD)) ds
    (Q12 (Q6 (Q2 px k0) (q2_0 F) (q2_0 F)) (q6_0 F), Q12 (Q6 (Q2 py k0) (q2_0 F) (q2_0 F)) (q6_0 F))
    (Q12 (Q6 (q2_0 F) gx (q2_0 F)) (q6_0 F), Q12 (q6_0 F) (Q6 (q2_0 F) gy (q2_0 F))) = Some f ->
  dig_pairing ds (Aff1 F px py false) (Aff2 F gx gy false)
    = Some (rpow (q12_mul F) (q12_1 F) f (Z.to_nat ((Q_MOD ^ 12 - 1) / R_MOD))).
Proof. exact (pairing_textbook ds px py gx gy f). Qed.
Theorem C53_code_digits : ate_pairing = dig_pairing ate_digits /\
  signed_value (1 :: ate_digits) = 6 * BN_X + 2 /\ nth 64 SIX_U_PLUS_2_NAF 0 = 1 /\ length SIX_U_PLUS_2_NAF = 65%nat.
Proof. split; [reflexivity|]. vm_compute. auto. Qed.
(** w^6 = 9 + u, the constant of the sextic twist. *)
Theorem C53_twisting_constant : rpow (q12_mul F) (q12_1 F) ww 6 =
  Q12 (Q6 (Q2 (kofnat 9) k1) (q2_0 F) (q2_0 F)) (q6_0 F).
Proof.
  replace (rpow (q12_mul F) (q12_1 F) ww 6) with (emb12 (rpow (q6_mul F) (q6_1 F) (q6_v F) 3)).
  - rewrite v3. unfold emb12, emb6, ExtProofs.xi, q2_xi. apply q12_eq; [|reflexivity]. cbn [e0]. apply q6_eq; try reflexivity.
  - cbn [rpow]. rewrite !emb12_mul, <- w2. change (emb12 (q6_1 F)) with (q12_1 F). ring.
Qed.
Theorem C53_identity_pairs_to_one g1 g2 : a1inf F g1 = true \/ a2inf F g2 = true -> ate_pairing g1 g2 = Some (gt_identity F).
Proof. exact (pairing_identity ate_digits g1 g2). Qed.
Example C53_example : exists f, optimal_ate Fq12Fld (fun a => rpow (q12_mul F) (q12_1 F) a (Z.to_nat Q_MOD)) [1]
    (Q12 (Q6 (Q2 g1_generator_x k0) (q2_0 F) (q2_0 F)) (q6_0 F), Q12 (Q6 (Q2 g1_generator_y k0) (q2_0 F) (q2_0 F)) (q6_0 F))
    (Q12 (Q6 (q2_0 F) g2_generator_x (q2_0 F)) (q6_0 F), Q12 (q6_0 F) (Q6 (q2_0 F) g2_generator_y (q2_0 F))) = Some f.
Proof. exact ate_example. Qed.

(** ** C54: final exponentiation *)
Theorem C54_final_exp f : f <> q12_0 F ->
  fe f = Some (rpow (q12_mul F) (q12_1 F) f (Z.to_nat ((Q_MOD ^ 12 - 1) / R_MOD))) /\ R_MOD * ((Q_MOD ^ 12 - 1) / R_MOD) = Q_MOD ^ 12 - 1.
Proof. intros H. split; [exact (final_exp_pow f H)|]. rewrite Z.mul_comm. exact r_divides. Qed.
Theorem C54_final_exp_zero_panics : fe (q12_0 F) = None.
Proof. exact final_exp_zero. Qed.
Theorem C54_order f : f <> q12_0 F -> exists g, fe f = Some g /\ rpow (q12_mul F) (q12_1 F) g (Z.to_nat R_MOD) = q12_1 F.
Proof. exact (final_exp_order f). Qed.
Theorem C54_multiplicative a b x y : fe a = Some x -> fe b = Some y -> fe (q12_mul F a b) = Some (q12_mul F x y).
Proof. exact (fe_mul a b x y). Qed.
(** The inner cyclotomic squaring squares every z with z^(q^4) z = z^(q^2). *)
Theorem C54_cyclotomic_square z :
  q12_mul F (rpow (q12_mul F) (q12_1 F) z (Z.to_nat Q_MOD ^ 4)) z = rpow (q12_mul F) (q12_1 F) z (Z.to_nat Q_MOD ^ 2) ->
  cyclotomic_square F z = q12_mul F z z.
Proof.
  rewrite <- !frob12s_pow. destruct z as [[z0 z4 z3] [z2 z1 z5]]. exact (cyc_square_aux z0 z1 z2 z3 z4 z5).
Qed.
Example C54_example : fe ww <> None.
Proof.
  rewrite (proj1 (C54_final_exp ww ltac:(intros H; apply (f_equal (fun z => c0 (d0 (e1 z)))) in H; exact (k1_neq0 F H)))). discriminate.
Qed.

(** ** C56: the target group *)
Theorem C56_group_on_outputs f g : fe f = Some g ->
  gt_add F g (gt_identity F) = g /\ gt_add F g (gt_neg F g) = gt_identity F /\ gt_sub F g g = gt_identity F.
Proof. intros H. pose proof (Fq2Sqrt.gt_neg f g H) as E. unfold gt_add, gt_identity, gt_sub, PairingModel.gt_neg, gt_add. repeat split; [ring|exact E|exact E]. Qed.
(** [zero()] is not neutral, and on other values of Fq12 (for instance those [Gt::random] returns) negation is not inversion. *)
Theorem C56_zero_refuted : exists g, gt_add F (gt_zero F) g <> g.
Proof.
  exists (q12_1 F). unfold gt_add, gt_zero. replace (q12_mul F (q12_0 F) (q12_1 F)) with (q12_0 F) by ring.
  intros H. apply (f_equal (fun z => c0 (d0 (e0 z)))) in H. exact (k1_neq0 F (eq_sym H)).
Qed.
Theorem C56_neg_refuted : exists g, g <> q12_0 F /\ gt_add F g (PairingModel.gt_neg F g) <> gt_identity F.
Proof.
  exists ww. split; [intros H; apply (f_equal (fun z => c0 (d0 (e1 z)))) in H; exact (k1_neq0 F H)|].
  unfold gt_add, gt_identity, PairingModel.gt_neg.
  replace (q12_conj F ww) with (q12_neg F ww).
  - replace (q12_mul F ww (q12_neg F ww)) with (q12_neg F (q12_mul F ww ww)) by ring. rewrite w2.
    intros H. apply (f_equal (fun z => c0 (d0 (e0 z)))) in H. change (kopp (k0 : F) = k1) in H.
    apply (k1_neq0 F). rewrite <- H. ring.
  - apply q12_eq; [|reflexivity]. cbn [ww e0 q12_neg q12_conj]. ring.
Qed.

(** ** C55: square roots in Fq2 *)
Theorem C55_sqrt_sound a s : q2_sqrt F a = Some s -> q2_mul F s s = a.
Proof. exact (q2_sqrt_sound a s). Qed.
Theorem C55_sqrt_complete a b : q2_mul F b b = a -> exists s, q2_sqrt F a = Some s.
Proof. exact (q2_sqrt_complete a b). Qed.
Example C55_example : q2_mul F (Q2 (fq_mk 1) (fq_mk 2)) (Q2 (fq_mk 1) (fq_mk 2)) = Q2 (fq_mk (-3)) (fq_mk 4).
Proof. apply raw_eqb_eq. vm_compute. reflexivity. Qed.
