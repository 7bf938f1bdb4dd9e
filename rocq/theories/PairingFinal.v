(** The pairing equals the textbook optimal ate pairing. *)
From Coq Require Import ZArith List Bool Lia Field Ring.
From Verif Require Import LimbModel LimbProofs FieldModel FieldSpec FieldProofs DigitProofs PowProofs FieldMore Primes
  Algebra ExtModel ExtSpec ExtProofs ExtParams RingPow ExtFrob FinalExp PairingModel PairingSpec PairingProofs PairingRefine.
Import ListNotations.
Local Open Scope Z_scope.
Local Notation F := FqFld.
Definition qfrob (a : q12 F) : q12 F := pw12 a Q.
Definition ate_pairing (g1 : affine1 F) (g2 : affine2 F) : option (q12 F) :=
  pairing F (nth 1 frob_fq6_c1 (q2_0 F)) (nth 2 frob_fq6_c1 (q2_0 F)) xi_to_q_minus_1_over_2 ate_digits fe g1 g2.
Definition ate_multi (pairs : list (affine1 F * prepared F)) : option (q12 F) := multi_miller_loop F ate_digits pairs.
Definition ate_prepare (g2 : affine2 F) : prepared F :=
  prepare F (nth 1 frob_fq6_c1 (q2_0 F)) (nth 2 frob_fq6_c1 (q2_0 F)) xi_to_q_minus_1_over_2 ate_digits g2.

(** The Frobenius map on the two coordinate slots. *)
Section FrobSlots.
Variable G : Fld.
Add Ring ring2g : (q2_ring G). Add Field fg : (kth G).
Variables (u1 u2 u12 : list (q2 G)).
Lemma conj0 : q2_conj G (q2_0 G) = q2_0 G. Proof. apply q2_eq; unfold q2_conj, q2_0; cbn [c0 c1]; ring. Qed.
Lemma gfrob_x x : q12_frob G u1 u2 u12 (Q12 (Q6 (q2_0 G) x (q2_0 G)) (q6_0 G)) =
  Q12 (Q6 (q2_0 G) (q2_mul G (q2_conj G x) (nth 1 u1 (q2_0 G))) (q2_0 G)) (q6_0 G).
Proof.
  unfold q12_frob, q6_frob, q2_frob. cbn [e0 e1 d0 d1 d2 q6_0]. rewrite !conj0, q6_mul_coords. cbn [d0 d1 d2].
  apply q12_eq; cbn [e0 e1]; apply q6_eq; cbn [d0 d1 d2 q6_0]; ring.
Qed.
Lemma gfrob_y y : q12_frob G u1 u2 u12 (Q12 (q6_0 G) (Q6 (q2_0 G) y (q2_0 G))) =
  Q12 (q6_0 G) (Q6 (q2_0 G) (q2_mul G (q2_conj G y) (q2_mul G (nth 1 u1 (q2_0 G)) (nth 1 u12 (q2_0 G)))) (q2_0 G)).
Proof.
  unfold q12_frob, q6_frob, q2_frob. cbn [e0 e1 d0 d1 d2 q6_0]. rewrite !conj0, q6_mul_coords. cbn [d0 d1 d2].
  apply q12_eq; cbn [e0 e1]; apply q6_eq; cbn [d0 d1 d2 q6_0]; ring.
Qed.
End FrobSlots.

Lemma xi_half_raw : raw_eqb (raw_mul (lim2 (nth 1 t1 (q2_0 F))) (lim2 (nth 1 t12 (q2_0 F)))) (lim2 xi_to_q_minus_1_over_2) = true.
Proof. vmchk. Qed.
Lemma xi_half : q2_mul F (nth 1 t1 (q2_0 F)) (nth 1 t12 (q2_0 F)) = xi_to_q_minus_1_over_2.
Proof. pose proof xi_half_raw as H. rewrite raw_mul_lim in H. apply raw_eqb_eq, H. Qed.
Lemma frob_x x : qfrob (Q12 (Q6 (q2_0 F) x (q2_0 F)) (q6_0 F)) = Q12 (Q6 (q2_0 F) (q2_mul F (q2_conj F x) (nth 1 frob_fq6_c1 (q2_0 F))) (q2_0 F)) (q6_0 F).
Proof. unfold qfrob. rewrite <- frob12_is_pow. apply gfrob_x. Qed.
Lemma frob_y y : qfrob (Q12 (q6_0 F) (Q6 (q2_0 F) y (q2_0 F))) = Q12 (q6_0 F) (Q6 (q2_0 F) (q2_mul F (q2_conj F y) xi_to_q_minus_1_over_2) (q2_0 F)).
Proof. unfold qfrob. rewrite <- frob12_is_pow. rewrite <- xi_half. apply gfrob_y. Qed.
Lemma qfrob2 a : qfrob (qfrob a) = frob12s a 2.
Proof.
  rewrite frob12s_pow. unfold qfrob. rewrite <- (rpow_mul _ _ _ _ _ _ r12). rewrite (Nat.pow_2_r Q). reflexivity.
Qed.
Lemma frob_x2 x : qfrob (qfrob (Q12 (Q6 (q2_0 F) x (q2_0 F)) (q6_0 F))) = Q12 (Q6 (q2_0 F) (q2_mul F x (nth 2 frob_fq6_c1 (q2_0 F))) (q2_0 F)) (q6_0 F).
Proof.
  rewrite qfrob2. unfold q6_0. rewrite frob12_2. fold t1. rewrite t1_2. generalize zeta. intros z.
  apply q12_eq; cbn [e0 e1]; apply q6_eq; cbn [d0 d1 d2]; ring.
Qed.
Lemma frob_y2 y : qfrob (qfrob (Q12 (q6_0 F) (Q6 (q2_0 F) y (q2_0 F)))) = q12_neg F (Q12 (q6_0 F) (Q6 (q2_0 F) y (q2_0 F))).
Proof.
  rewrite qfrob2. unfold q6_0. rewrite frob12_2. pose proof zeta_sq as Z. revert Z. generalize zeta. intros z Z.
  assert (Z3 : q2_mul F (q2_mul F z z) z = q2_neg F (q2_1 F)).
  { rewrite Z. transitivity (q2_sub F (q2_mul F z z) z); [ring|]. rewrite Z. ring. }
  assert (E : q2_mul F (q2_mul F y (q2_mul F z z)) z = q2_neg F y).
  { transitivity (q2_mul F y (q2_mul F (q2_mul F z z) z)); [ring|]. rewrite Z3. ring. }
  unfold q12_neg, q6_neg. cbn [e0 e1 d0 d1 d2]. rewrite E.
  apply q12_eq; cbn [e0 e1]; apply q6_eq; cbn [d0 d1 d2]; ring.
Qed.
(** Factors from Fq2 vanish in the final exponentiation. *)
Lemma scal_num : (Q_MOD ^ 2 - 1) * ((Q_MOD ^ 4 + Q_MOD ^ 2 + 1) * (Q_MOD ^ 2 + 1) * (NN / R_MOD)) = (Q_MOD ^ 12 - 1) / R_MOD.
Proof. rewrite <- fe_num. ring. Qed.
Lemma em12_pw k n : em12 F (pw2 k n) = pw12 (em12 F k) n.
Proof. induction n as [|n IH]; [reflexivity|]. rewrite !rpow_S, em_mul, IH. reflexivity. Qed.
Lemma pz_mul_l a b e : pz (q12_mul F a b) e = q12_mul F (pz a e) (pz b e).
Proof. apply (rpow_mul_l _ _ _ _ _ _ r12). Qed.
Lemma scal_one k : k <> q2_0 F -> pz (em12 F k) ((Q_MOD ^ 12 - 1) / R_MOD) = q12_1 F.
Proof.
  intros K0. rewrite <- scal_num.
  assert (E : pz (em12 F k) (Q_MOD ^ 2 - 1) = q12_1 F).
  { apply (q12_cancel (em12 F k)); [intros E; apply K0, (em_inj F), E|]. transitivity (em12 F k); [|ring].
    assert (E2 : pz (em12 F k) (Q_MOD ^ 2) = em12 F k).
    { unfold pz. change 2 with (Z.of_nat 2). rewrite <- toQ, <- em12_pw, <- frob2s_pow. f_equal. apply (frob2s_even k 2). reflexivity. }
    etransitivity; [|exact E2]. replace (Q_MOD ^ 2) with (1 + (Q_MOD ^ 2 - 1)) at 2 by ring.
    rewrite pz_add, pz_1; [reflexivity|lia|]. pose proof (Z.pow_pos_nonneg Q_MOD 2 qpos). lia. }
  pose proof (Z.pow_pos_nonneg Q_MOD 2 qpos). pose proof (Z.pow_pos_nonneg Q_MOD 4 qpos).
  pose proof (Z.div_pos NN R_MOD ltac:(pose proof NNpos; lia) r_pos) as D.
  assert (P : 0 <= (Q_MOD ^ 4 + Q_MOD ^ 2 + 1) * (Q_MOD ^ 2 + 1) * (NN / R_MOD)) by (apply Z.mul_nonneg_nonneg; [apply Z.mul_nonneg_nonneg; lia|exact D]).
  etransitivity; [exact (pz_mul (em12 F k) (Q_MOD ^ 2 - 1) _ ltac:(lia) P)|]. rewrite E. apply pz_one.
Qed.

(** The untwisted points: P from Fq, and (x w^2, y w^3) for Q. *)
Definition up (px py : F) : pt Fq12Fld := (em12 F (em2 F px), em12 F (em2 F py)).
Definition uq (x y : q2 F) : pt Fq12Fld := (Q12 (Q6 (q2_0 F) x (q2_0 F)) (q6_0 F), Q12 (q6_0 F) (Q6 (q2_0 F) y (q2_0 F))).
Lemma fq_two : (kadd k1 k1 : F) <> k0.
Proof. intros E. assert (E' : keqb (kadd k1 k1 : F) k0 = true) by (apply keqb_eq; exact E). revert E'. vm_compute. discriminate. Qed.
Local Notation K12 := Fq12Fld.
Lemma hx (x : q2 F) : qfrob (kmul (kmul (em12 F x : K12) (gw F)) (gw F)) = kmul (kmul (em12 F (q2_mul F (q2_conj F x) (nth 1 frob_fq6_c1 (q2_0 F))) : K12) (gw F)) (gw F).
Proof.
  change (qfrob (q12_mul F (q12_mul F (em12 F x) (gw F)) (gw F)) = q12_mul F (q12_mul F (em12 F (q2_mul F (q2_conj F x) (nth 1 frob_fq6_c1 (q2_0 F)))) (gw F)) (gw F)).
  rewrite !x_slot. apply frob_x.
Qed.
Lemma hy (y : q2 F) : qfrob (kmul (kmul (kmul (em12 F y : K12) (gw F)) (gw F)) (gw F)) = kmul (kmul (kmul (em12 F (q2_mul F (q2_conj F y) xi_to_q_minus_1_over_2) : K12) (gw F)) (gw F)) (gw F).
Proof.
  change (qfrob (q12_mul F (q12_mul F (q12_mul F (em12 F y) (gw F)) (gw F)) (gw F)) = q12_mul F (q12_mul F (q12_mul F (em12 F (q2_mul F (q2_conj F y) xi_to_q_minus_1_over_2)) (gw F)) (gw F)) (gw F)).
  rewrite !y_slot. apply frob_y.
Qed.
Lemma hx2 (x : q2 F) : qfrob (qfrob (kmul (kmul (em12 F x : K12) (gw F)) (gw F))) = kmul (kmul (em12 F (q2_mul F x (nth 2 frob_fq6_c1 (q2_0 F))) : K12) (gw F)) (gw F).
Proof.
  change (qfrob (qfrob (q12_mul F (q12_mul F (em12 F x) (gw F)) (gw F))) = q12_mul F (q12_mul F (em12 F (q2_mul F x (nth 2 frob_fq6_c1 (q2_0 F)))) (gw F)) (gw F)).
  rewrite !x_slot. apply frob_x2.
Qed.
Lemma hy2 (y : q2 F) : qfrob (qfrob (kmul (kmul (kmul (em12 F y : K12) (gw F)) (gw F)) (gw F))) = kopp (kmul (kmul (kmul (em12 F y : K12) (gw F)) (gw F)) (gw F)).
Proof.
  change (qfrob (qfrob (q12_mul F (q12_mul F (q12_mul F (em12 F y) (gw F)) (gw F)) (gw F))) = q12_neg F (q12_mul F (q12_mul F (q12_mul F (em12 F y) (gw F)) (gw F)) (gw F))).
  rewrite !y_slot. apply frob_y2.
Qed.
(** For any digits. *)
Definition dig_prepare (ds : list Z) (g2 : affine2 F) : prepared F :=
  prepare F (nth 1 frob_fq6_c1 (q2_0 F)) (nth 2 frob_fq6_c1 (q2_0 F)) xi_to_q_minus_1_over_2 ds g2.
Theorem multi_textbook ds px py gx gy f : py <> k0 -> optimal_ate Fq12Fld qfrob ds (up px py) (uq gx gy) = Some f ->
  f <> q12_0 F /\ exists k, k <> q2_0 F /\
  multi_miller_loop F ds [(Aff1 F px py false, dig_prepare ds (Aff2 F gx gy false))] = Some (q12_mul F (em12 F k) f).
Proof.
  intros PY H. unfold dig_prepare. rewrite single_fused.
  destruct (miller_refine F Fq12Fld (em12 F) (fun a => em12 F (em2 F a)) (gw F) (gw_neq0 F) (em_mul F) (em_add F) eq_refl (em_inj F)
    (two12 F fq_two) (fun a => a) (fun _ _ => eq_refl) eq_refl (line_slots F) px py
    (fun a b c A => line_neq0 F a b c px py A PY)
    (nth 1 frob_fq6_c1 (q2_0 F)) (nth 2 frob_fq6_c1 (q2_0 F)) xi_to_q_minus_1_over_2 qfrob hx hy hx2 hy2 ds gx gy f) as (F0 & k & K0 & E).
  - etransitivity; [|exact H]. unfold uq. rewrite <- x_slot, <- y_slot. reflexivity.
  - split; [exact F0|]. exists k. split; [intros ->; apply K0; reflexivity|]. f_equal. exact E.
Qed.
Definition dig_pairing (ds : list Z) (g1 : affine1 F) (g2 : affine2 F) : option (q12 F) :=
  bind (multi_miller_loop F ds [(g1, dig_prepare ds g2)]) fe.
Theorem pairing_textbook ds px py gx gy f : py <> k0 -> optimal_ate Fq12Fld qfrob ds (up px py) (uq gx gy) = Some f ->
  dig_pairing ds (Aff1 F px py false) (Aff2 F gx gy false) = Some (pz f ((Q_MOD ^ 12 - 1) / R_MOD)).
Proof.
  intros PY H. destruct (multi_textbook ds px py gx gy f PY H) as (F0 & k & K0 & E).
  unfold dig_pairing. rewrite E. cbn [bind].
  rewrite final_exp_pow.
  - rewrite pz_mul_l, scal_one by exact K0. apply (f_equal Some). generalize (pz f ((Q_MOD ^ 12 - 1) / R_MOD)). intros u. ring.
  - intros Z. apply F0. apply (q12_cancel (em12 F k)); [intros E0; apply K0, (em_inj F), E0|]. rewrite Z. ring.
Qed.
Lemma ate_pairing_eq a b : ate_pairing a b = dig_pairing ate_digits a b. Proof. reflexivity. Qed.
Lemma pairing_identity ds g1 g2 : a1inf F g1 = true \/ a2inf F g2 = true -> dig_pairing ds g1 g2 = Some (q12_1 F).
Proof.
  intros H. unfold dig_pairing. rewrite multi_skip.
  - cbn [bind]. rewrite final_exp_pow; [|intros E; apply (f_equal (fun z => c0 (d0 (e0 z)))) in E; exact (k1_neq0 F E)].
    apply (f_equal Some). apply pz_one.
  - destruct H as [H|H]; [left; exact H|right]. unfold dig_prepare, prepare. rewrite H. reflexivity.
Qed.
Lemma fe_mul a b x y : fe a = Some x -> fe b = Some y -> fe (q12_mul F a b) = Some (q12_mul F x y).
Proof.
  intros A B.
  assert (Z : forall c z, fe c = Some z -> c <> q12_0 F) by (intros c z H ->; rewrite final_exp_zero in H; discriminate).
  pose proof (Z _ _ A) as A0. pose proof (Z _ _ B) as B0. rewrite final_exp_pow in A by exact A0. rewrite final_exp_pow in B by exact B0.
  rewrite final_exp_pow.
  - rewrite pz_mul_l. apply some_inj in A, B. subst x y. reflexivity.
  - intros E. apply B0. apply (q12_cancel a); [exact A0|]. rewrite E. ring.
Qed.
