(** The fields, curves and maps of the BN254 pairing as an instance of the abstract pairing. *)
From Coq Require Import ZArith List Bool Lia Field Ring Znumtheory.
From Verif Require Import LimbModel LimbProofs FieldModel FieldSpec FieldProofs DigitProofs PowProofs FieldMore Primes
  Algebra ExtModel ExtParams ExtProofs ExtFrob CurveSpec CurveGroup GroupLib CurveAb CurveParams CircuitFields CurveOrder
  PairingSpec PairingModel PairingProofs FinalExp PairingRefine PairingFinal LineVal TwistMap BilinAlg PairAbs PairTarget.
Import ListNotations.
Local Open Scope Z_scope.
Local Notation F := FqFld.
Local Notation K12 := Fq12Fld.

(** Embeddings. *)
Definition ib (a : F) : K12 := em12 F (em2 F a).
Definition io (a : Fq2Fld) : K12 := em12 F a.
Definition w : K12 := gw F.
Section GenEmb.
Variable G : Fld.
Add Field gefield : (kth G).
Lemma g_em2_add a c : em2 G (kadd a c) = q2_add G (em2 G a) (em2 G c).
Proof. apply q2_eq; unfold em2, q2_add; cbn [c0 c1]; ring. Qed.
Lemma g_em2_mul a c : em2 G (kmul a c) = q2_mul G (em2 G a) (em2 G c).
Proof. apply q2_eq; unfold em2, q2_mul; cbn [c0 c1]; ring. Qed.
Lemma g_diff a x : q12_sub G (em12 G (em2 G a)) (Q12 (Q6 (q2_0 G) x (q2_0 G)) (q6_0 G)) = Q12 (Q6 (em2 G a) (q2_neg G x) (q2_0 G)) (q6_0 G).
Proof.
  apply q12_eq; unfold em12, q12_sub, q6_sub, q6_0, em2, q2_sub, q2_neg, q2_0; cbn [e0 e1 d0 d1 d2]; apply q6_eq; cbn [d0 d1 d2]; apply q2_eq; cbn [c0 c1]; ring.
Qed.
Lemma g_conj6 (a : q6 G) : q12_conj G (Q12 a (q6_0 G)) = Q12 a (q6_0 G).
Proof.
  apply q12_eq; [reflexivity|]. unfold q12_conj, q6_neg, q6_0, q2_neg, q2_0. cbn [e0 e1 d0 d1 d2 c0 c1].
  apply q6_eq; cbn [d0 d1 d2]; apply q2_eq; cbn [c0 c1]; ring.
Qed.
Lemma g_neg6 (a : q6 G) : q12_neg G (Q12 a (q6_0 G)) = Q12 (q6_neg G a) (q6_0 G).
Proof.
  apply q12_eq; [reflexivity|]. unfold q12_neg, q6_neg, q6_0, q2_neg, q2_0. cbn [e0 e1 d0 d1 d2 c0 c1].
  apply q6_eq; cbn [d0 d1 d2]; apply q2_eq; cbn [c0 c1]; ring.
Qed.
Lemma g_neg6_0 (a : q6 G) : q6_neg G a = q6_0 G -> a = q6_0 G.
Proof.
  intros H. destruct a as [[a7 a1] [a2 a3] [a4 a5]]. unfold q6_neg, q2_neg, q6_0, q2_0 in H. cbn [d0 d1 d2 c0 c1] in H. injection H as H0 H1 H2 H3 H4 H5.
  assert (N : forall z : G, kopp z = k0 -> z = k0) by (intros z E; transitivity (kopp (kopp z)); [ring|rewrite E; ring]).
  rewrite (N _ H0), (N _ H1), (N _ H2), (N _ H3), (N _ H4), (N _ H5). reflexivity.
Qed.
End GenEmb.
Lemma ib_add a c : ib (kadd a c) = kadd (ib a) (ib c). Proof. unfold ib. rewrite g_em2_add. apply em_add. Qed.
Lemma ib_mul a c : ib (kmul a c) = kmul (ib a) (ib c). Proof. unfold ib. rewrite g_em2_mul. apply em_mul. Qed.
Lemma ib_1 : ib k1 = k1. Proof. reflexivity. Qed.
Lemma io_add a c : io (kadd a c) = kadd (io a) (io c). Proof. apply em_add. Qed.
Lemma io_mul a c : io (kmul a c) = kmul (io a) (io c). Proof. apply em_mul. Qed.
Lemma io_1 : io k1 = k1. Proof. reflexivity. Qed.
Lemma w_neq0 : w <> k0. Proof. exact (gw_neq0 F). Qed.

(** Negligible factors: nonzero elements of Fq6. *)
Definition U6 (z : K12) : Prop := exists a : q6 F, a <> q6_0 F /\ z = emb12 a.
Lemma U6_1 : U6 k1. Proof. exists (q6_1 F). split; [exact (k1_neq0 Fq6Fld)|reflexivity]. Qed.
Lemma U6_mul a c : U6 a -> U6 c -> U6 (kmul a c).
Proof.
  intros (x & X & ->) (y & Y & ->). exists (q6_mul F x y). split; [exact (kmul_neq0 Fq6Fld x y X Y)|]. symmetry. apply emb12_mul.
Qed.
Lemma U6_opp a : U6 a -> U6 (kopp a).
Proof. intros (x & X & ->). exists (q6_neg F x). split; [intros E; apply X, g_neg6_0, E|]. apply (g_neg6 F). Qed.
Lemma U6_0 a : U6 a -> a <> k0.
Proof. intros (x & X & ->) E. apply X. exact (f_equal e0 E). Qed.
(** They are killed by the final exponentiation. *)
Lemma e6_num : (Q_MOD ^ 6 - 1) * ((Q_MOD ^ 2 + 1) * (NN / R_MOD)) = (Q_MOD ^ 12 - 1) / R_MOD.
Proof. rewrite Z.mul_assoc. apply fe_num. Qed.
Lemma q6pos : 0 < Q_MOD ^ 6. Proof. apply Z.pow_pos_nonneg; [apply qpos|lia]. Qed.
Lemma nnr_pos : 0 <= (Q_MOD ^ 2 + 1) * (NN / R_MOD).
Proof. apply Z.mul_nonneg_nonneg; [pose proof (Z.pow_nonneg Q_MOD 2 ltac:(pose proof qpos; lia)); lia|]. apply Z.div_pos; [pose proof NNpos; lia|exact FinalExp.r_pos]. Qed.
Lemma U6_one z : U6 z -> pz z ((Q_MOD ^ 12 - 1) / R_MOD) = q12_1 F.
Proof.
  intros H. pose proof (U6_0 _ H) as N. destruct H as (a & _ & ->).
  assert (E1 : pz (emb12 a) (Q_MOD ^ 6 - 1) = q12_1 F).
  { apply (q12_cancel (emb12 a)); [exact N|]. rewrite <- (pz_1 (emb12 a)) at 1. pose proof q6pos. rewrite <- pz_add by lia.
    replace (1 + (Q_MOD ^ 6 - 1)) with (Q_MOD ^ 6) by lia. rewrite <- conj_pz. unfold emb12. rewrite (g_conj6 F).
    generalize (Q12 a (q6_0 F)). intros u. ring. }
  rewrite <- e6_num. rewrite pz_mul; [|pose proof q6pos; lia|exact nnr_pos]. rewrite E1. apply pz_one.
Qed.

(** The target group and the character. *)
Lemma ord12 (f : K12) : f <> k0 -> pz f ((Q_MOD ^ 12 - 1) / R_MOD * R_MOD) = q12_1 F.
Proof. intros H. rewrite r_divides. apply pz_order, H. Qed.
Definition T12 : AbGrp := tgrp K12 pz pz_add pz_mul pz_1 pz_one pz_mul_l R_MOD FinalExp.r_pos.
Definition chi12 : K12 -> T12 := chi K12 pz pz_add pz_mul pz_1 pz_one pz_mul_l R_MOD _ FinalExp.r_pos fe_pos ord12.
Definition tval (t : T12) : q12 F := rval K12 pz R_MOD t.
Lemma chi12_val z : z <> k0 -> tval (chi12 z) = pz z ((Q_MOD ^ 12 - 1) / R_MOD).
Proof. exact (chi_val K12 pz pz_add pz_mul pz_1 pz_one pz_mul_l R_MOD _ FinalExp.r_pos fe_pos ord12 z). Qed.
Lemma chi12_mul a c : a <> k0 -> c <> k0 -> chi12 (kmul a c) = aadd (chi12 a) (chi12 c).
Proof. exact (chi_mul K12 pz pz_add pz_mul pz_1 pz_one pz_mul_l R_MOD _ FinalExp.r_pos fe_pos ord12 a c). Qed.
Lemma tval_inj a c : tval a = tval c -> a = c. Proof. exact (root_eq K12 pz R_MOD a c). Qed.
Lemma tval_add a c : tval (aadd a c) = q12_mul F (tval a) (tval c). Proof. reflexivity. Qed.
Lemma tval_0 : tval a0 = q12_1 F. Proof. reflexivity. Qed.
Lemma tval_zmul k a : 0 <= k -> tval (zmul k a) = pz (tval a) k.
Proof. exact (rval_zmul K12 pz pz_add pz_mul pz_0 pz_1 pz_one pz_mul_l R_MOD FinalExp.r_pos k a). Qed.
Lemma chi12_U u : U6 u -> chi12 u = a0.
Proof. intros H. apply tval_inj. rewrite chi12_val by (apply U6_0, H). rewrite tval_0. apply U6_one, H. Qed.
Lemma tval_r a : zmul R_MOD a = (a0 : T12).
Proof. exact (tgrp_killed K12 pz pz_add pz_mul pz_0 pz_1 pz_one pz_mul_l R_MOD FinalExp.r_pos a). Qed.
(** Frobenius. *)
Lemma qfrob_pz a : qfrob a = pz a Q_MOD. Proof. reflexivity. Qed.
Lemma qf_add (a c : K12) : qfrob (kadd a c) = kadd (qfrob a : K12) (qfrob c). Proof. apply add_pow12. Qed.
Lemma qf_mul (a c : K12) : qfrob (kmul a c) = kmul (qfrob a : K12) (qfrob c). Proof. rewrite !qfrob_pz. apply pz_mul_l. Qed.
Lemma qf_1 : qfrob (@k1 K12) = @k1 K12. Proof. rewrite qfrob_pz. apply pz_one. Qed.
Lemma qf_ib a : qfrob (ib a) = ib a.
Proof.
  unfold qfrob, ib. change (em2 F a) with (emb2 a). rewrite <- em12_pw, <- emb2_pow, fq_fermat. reflexivity.
Qed.
Lemma qf_neq0 (a : K12) : a <> k0 -> qfrob a <> @k0 K12.
Proof.
  intros N. exact (h_neq0 K12 K12 qfrob qf_mul qf_1 a N).
Qed.
Lemma chi12_frob (a : K12) : a <> k0 -> chi12 (qfrob a) = zmul Q_MOD (chi12 a).
Proof.
  intros N. rewrite qfrob_pz.
  apply (chi_pow K12 pz pz_add pz_mul pz_0 pz_1 pz_one pz_mul_l R_MOD _ FinalExp.r_pos fe_pos ord12 a Q_MOD); [pose proof qpos; lia|exact N|].
  rewrite <- qfrob_pz. apply qf_neq0, N.
Qed.
Definition ate_s : Z := 29793968203157093288.
Lemma lam_num : (ate_s + Q_MOD - Q_MOD * Q_MOD + Q_MOD * Q_MOD * Q_MOD) mod R_MOD = 0.
Proof. apply Z.eqb_eq. vm_cast_no_check (eq_refl true). Qed.
Lemma lam12 (t : T12) : zmul (ate_s + Q_MOD - Q_MOD * Q_MOD + Q_MOD * Q_MOD * Q_MOD) t = a0.
Proof. rewrite <- (zmul_mod _ R_MOD _ t (tval_r t)), lam_num. reflexivity. Qed.
(** Curve constants. *)
Definition b12 : K12 := ib g1_param_b.
Lemma w6_xi : kmul (kmul (kmul (kmul (kmul w w) w) w) w) w = io xi.
Proof.
  transitivity (kmul (kmul (kmul w w) (kmul w w)) (kmul w w)).
  { generalize w. intros u. change (q12 F) in u. change (q12_mul F (q12_mul F (q12_mul F (q12_mul F (q12_mul F u u) u) u) u) u = q12_mul F (q12_mul F (q12_mul F u u) (q12_mul F u u)) (q12_mul F u u)). ring. }
  change (kmul w w) with (q12_mul F ww ww). rewrite w2. change (q12_mul F (q12_mul F (emb12 (q6_v F)) (emb12 (q6_v F))) (emb12 (q6_v F)) = emb12 (emb6 xi)).
  rewrite <- !emb12_mul. f_equal. rewrite <- v3. change (pw6 (q6_v F) 3) with (q6_mul F (q6_v F) (q6_mul F (q6_v F) (q6_mul F (q6_v F) (q6_1 F)))). generalize (q6_v F). intros u. ring.
Qed.
Lemma xi_91 : xi = Q2 (fq_mk 9) (fq_mk 1). Proof. apply raw_eqb_eq. vm_compute. reflexivity. Qed.
Lemma em2_3 : em2 F g1_param_b = Q2 (fq_mk 3) (fq_mk 0). Proof. apply raw_eqb_eq. vm_compute. reflexivity. Qed.
Lemma hb2 : b12 = kmul (io g2_param_b) (kmul (kmul (kmul (kmul (kmul w w) w) w) w) w).
Proof.
  rewrite w6_xi, <- io_mul. unfold b12, ib, io. rewrite em2_3, xi_91. apply (f_equal (em12 F)). symmetry. exact g2_b_value.
Qed.
Lemma mul1_6 (x : K12) : x = kmul x (kmul (kmul (kmul (kmul (kmul k1 k1) k1) k1) k1) k1).
Proof. change (q12 F) in x. change (x = q12_mul F x (q12_mul F (q12_mul F (q12_mul F (q12_mul F (q12_mul F (q12_1 F) (q12_1 F)) (q12_1 F)) (q12_1 F)) (q12_1 F)) (q12_1 F))). ring. Qed.
Lemma hb1 : b12 = kmul (ib g1_param_b) (kmul (kmul (kmul (kmul (kmul k1 k1) k1) k1) k1) k1).
Proof. apply mul1_6. Qed.

(** No point of G1 has x = 0 (it would have order three). *)
Section X0.
Variable G : Fld.
Add Field x0field : (kth G).
Variable b : G.
Variables (two : kadd k1 k1 <> (k0 : G)) (three : kadd (kadd k1 k1) k1 <> (k0 : G)) (bnz : b <> k0).
Hypothesis no2 : forall x : G, kadd (kmul (kmul x x) x) b <> k0.
Lemma y_neq0 (x y : G) : on_curve b (Pt x y) -> y <> k0.
Proof. intros O ->. cbn [on_curve] in O. apply (no2 x). rewrite <- O. ring. Qed.
Lemma dbl_x0 (y : G) : kadd y y <> k0 -> pt_add (Pt k0 y) (Pt k0 y) = pt_neg (Pt k0 y).
Proof.
  intros N. assert (E : keqb y (kopp y) = false).
  { destruct (keqb_spec G y (kopp y)) as [E|]; [|reflexivity]. exfalso. apply N. rewrite E at 2. ring. }
  unfold pt_add, pt_neg. rewrite keqb_refl, E. cbn [andb]. f_equal; field; exact N.
Qed.
Variable r : Z.
Hypothesis r3 : r mod 3 = 1.
Hypothesis killed : forall P : cgrp G b two three bnz, zmul r P = a0.
Lemma x_neq0 (x y : G) : on_curve b (Pt x y) -> x <> k0.
Proof.
  intros O E. subst x. pose proof (y_neq0 _ _ O) as Y. set (P := cmk G b (Pt k0 y) O : cgrp G b two three bnz).
  assert (D : aadd P P = aneg P). { apply cpt_eq. rewrite cval_add, cval_neg. apply dbl_x0. intros E. apply Y, (dbl0 G two), E. }
  assert (T : zmul 3 P = a0). { change 3 with (2 * 1 + 1). rewrite zmul_add, zmul_double, zmul_1, D, acomm. apply ainv. }
  assert (Z : P = a0). { rewrite <- (killed P), <- (zmul_mod _ 3 r P T), r3, zmul_1. reflexivity. }
  apply (f_equal (cval G b)) in Z. discriminate Z.
Qed.
End X0.
Lemma r_mod3 : R_MOD mod 3 = 1. Proof. apply Z.eqb_eq. vm_cast_no_check (eq_refl true). Qed.
Lemma g1_y_neq0 (x y : F) : on_curve g1_param_b (Pt x y) -> y <> k0.
Proof. exact (y_neq0 F g1_param_b g1_no2 x y). Qed.
Lemma g1_x_neq0 (x y : F) : on_curve g1_param_b (Pt x y) -> x <> k0.
Proof. exact (x_neq0 F g1_param_b _ _ _ g1_no2 R_MOD r_mod3 g1_killed x y). Qed.
Lemma away12 px py x : on_curve g1_param_b (Pt px py) -> U6 (ksub (ib px) (kmul (kmul (io x) w) w)).
Proof.
  intros O. exists (Q6 (em2 F px) (q2_neg F x) (q2_0 F)). split.
  - intros E. apply (g1_x_neq0 _ _ O). exact (f_equal (fun z => c0 (d0 z)) E).
  - change (q12_sub F (em12 F (em2 F px)) (q12_mul F (q12_mul F (em12 F x) (gw F)) (gw F)) = emb12 (Q6 (em2 F px) (q2_neg F x) (q2_0 F))).
    rewrite x_slot. apply g_diff.
Qed.
(** The twist has no point of order two: the norm of its constant is not a cube. *)
Section Norm.
Variable G : Fld.
Add Field nmfield : (kth G).
Lemma g_norm3 (x b : q2 G) : q2_add G (q2_mul G (q2_mul G x x) x) b = q2_0 G ->
  kadd (kmul (kmul (q2_norm G x) (q2_norm G x)) (q2_norm G x)) (kopp (q2_norm G b)) = k0.
Proof.
  intros E. assert (EB : b = q2_neg G (q2_mul G (q2_mul G x x) x)).
  { destruct x as [x0 x1], b as [y0 y1]. unfold q2_add, q2_mul, q2_0, q2_neg in *. cbn [c0 c1] in *. injection E as E0 E1.
    apply q2_eq; cbn [c0 c1]; apply ksub_eq0; [rewrite <- E0|rewrite <- E1]; ring. }
  rewrite EB. destruct x as [x0 x1]. unfold q2_norm, q2_mul, q2_neg. cbn [c0 c1]. ring.
Qed.
End Norm.
Lemma g2_no2 (x : Fq2Fld) : kadd (kmul (kmul x x) x) g2_param_b <> k0.
Proof.
  intros E. apply (g_norm3 F) in E. revert E. generalize (q2_norm F x).
  apply (no_cube fq Q_MOD (or_intror (conj eq_refl eq_refl)) fq_ok Q_MOD_prime ((Q_MOD - 1) / 3)).
  - rewrite Q_MOD_val. reflexivity.
  - rewrite Q_MOD_val. apply Z.leb_le. reflexivity.
  - apply Z.eqb_neq. vm_cast_no_check (eq_refl false).
  - apply Z.eqb_neq. vm_cast_no_check (eq_refl false).
Qed.
