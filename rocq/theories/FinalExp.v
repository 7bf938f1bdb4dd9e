(** The final exponentiation: cyclotomic squaring squares cyclotomic elements, and
    [final_exp f = f^((q^12 - 1) / r)]. *)
From Coq Require Import ZArith List Bool Lia Field Ring Znumtheory.
From Verif Require Import LimbModel LimbProofs MontProofs FieldModel FieldSpec FieldProofs DigitProofs PowProofs FieldMore Primes
  Algebra ExtModel ExtSpec ExtProofs ExtParams RingPow ExtFrob.
Import ListNotations.
Local Open Scope Z_scope.
Local Notation "a ** b" := (q2_mul F a b) (at level 40, left associativity).
Local Notation "a ++' b" := (q2_add F a b) (at level 50, left associativity).

(** zeta: sixth root of unity, coefficient of w under x -> x^(q^2). *)
Definition zeta : F2 := nth 2 t12 (q2_0 F).
Definition raw_add (a b : raw2) : raw2 := (fadd fq (fst a) (fst b), fadd fq (snd a) (snd b)).
Lemma raw_add_lim a b : raw_add (lim2 a) (lim2 b) = lim2 (q2_add F a b). Proof. reflexivity. Qed.
Lemma z_eq : raw_eqb (raw_add (raw_mul (lim2 zeta) (lim2 zeta)) (lim2 (q2_1 F))) (lim2 zeta) = true. Proof. vmchk. Qed.
Lemma zeta_sq : zeta ** zeta = q2_sub F zeta (q2_1 F).
Proof. pose proof z_eq as H. rewrite raw_mul_lim, raw_add_lim in H. apply raw_eqb_eq in H. rewrite <- H at 3. ring. Qed.
Lemma z_t1_2 : raw_eqb (lim2 (nth 2 t1 (q2_0 F))) (raw_mul (lim2 zeta) (lim2 zeta)) = true. Proof. vmchk. Qed.
Lemma z_t2_2 : raw_eqb (lim2 (nth 2 t2 (q2_0 F))) (lim2 (q2_neg F zeta)) = true. Proof. vmchk. Qed.
Lemma z_t12_4 : raw_eqb (lim2 (nth 4 t12 (q2_0 F))) (raw_mul (lim2 zeta) (lim2 zeta)) = true. Proof. vmchk. Qed.
Lemma z_t1_4 : raw_eqb (lim2 (nth 4 t1 (q2_0 F))) (lim2 (q2_neg F zeta)) = true. Proof. vmchk. Qed.
Lemma z_t2_4 : raw_eqb (lim2 (nth 4 t2 (q2_0 F))) (raw_mul (lim2 zeta) (lim2 zeta)) = true. Proof. vmchk. Qed.
Lemma z_t12_6 : raw_eqb (lim2 (nth 6 t12 (q2_0 F))) (lim2 (q2_neg F (q2_1 F))) = true. Proof. vmchk. Qed.
Lemma t1_2 : nth 2 t1 (q2_0 F) = zeta ** zeta. Proof. pose proof z_t1_2 as H. rewrite raw_mul_lim in H. apply raw_eqb_eq, H. Qed.
Lemma t2_2 : nth 2 t2 (q2_0 F) = q2_neg F zeta. Proof. apply raw_eqb_eq, z_t2_2. Qed.
Lemma t12_4 : nth 4 t12 (q2_0 F) = zeta ** zeta. Proof. pose proof z_t12_4 as H. rewrite raw_mul_lim in H. apply raw_eqb_eq, H. Qed.
Lemma t1_4 : nth 4 t1 (q2_0 F) = q2_neg F zeta. Proof. apply raw_eqb_eq, z_t1_4. Qed.
Lemma t2_4 : nth 4 t2 (q2_0 F) = zeta ** zeta. Proof. pose proof z_t2_4 as H. rewrite raw_mul_lim in H. apply raw_eqb_eq, H. Qed.
Lemma t12_6 : nth 6 t12 (q2_0 F) = q2_neg F (q2_1 F). Proof. apply raw_eqb_eq, z_t12_6. Qed.

Lemma frob2s_even a k : (k mod 2 = 0)%nat -> frob2s a k = a.
Proof. intros H. unfold frob2s, q2_frobs. rewrite H, t0_0. apply q2_eq; cbn [c0 c1]; ring. Qed.
Lemma frob6s_6 a : frob6s a 6 = a.
Proof. exact (frob6s_0 a). Qed.
(** x -> x^(q^6) is conjugation. *)
Lemma conj12_pow a : q12_conj F a = pw12 a (Q ^ 6).
Proof.
  rewrite <- frob12s_pow, frob12s_eq. change (6 mod 12)%nat with 6%nat. rewrite t12_6, !frob6s_6.
  unfold q12_conj. f_equal. apply q6_eq; rewrite ?q6_mul_coords; unfold emb6, q6_neg; cbn [d0 d1 d2]; ring.
Qed.
Lemma fermat12 a : pw12 a (Q ^ 12) = a.
Proof. rewrite <- frob12s_pow. exact (frob12s_0 a). Qed.

(** ** Cyclotomic squaring. *)
Lemma from_eq (u l r x y : F2) : l = r -> q2_sub F x y = u ** q2_sub F l r -> x = y.
Proof. intros -> H. transitivity (q2_sub F x y ++' y); [ring|]. rewrite H. ring. Qed.
Ltac cyc_tac w E HZ HZ' :=
  first [ apply (from_eq (q2_1 F ++' q2_1 F) _ _ _ _ E); ring [HZ HZ']
        | apply (from_eq (w ++' w) _ _ _ _ E); ring [HZ HZ']
        | apply (from_eq (w ** w ++' w ** w) _ _ _ _ E); ring [HZ HZ']
        | apply (from_eq (q2_neg F (q2_1 F ++' q2_1 F)) _ _ _ _ E); ring [HZ HZ']
        | apply (from_eq (q2_neg F (w ++' w)) _ _ _ _ E); ring [HZ HZ']
        | apply (from_eq (q2_neg F (w ** w ++' w ** w)) _ _ _ _ E); ring [HZ HZ'] ].
Section Cyc.
Variables z0 z1 z2 z3 z4 z5 : F2.
Let z : F12 := Q12 (Q6 z0 z4 z3) (Q6 z2 z1 z5).
Lemma frob12_2 : frob12s z 2 = Q12 (Q6 z0 (z4 ** (zeta ** zeta)) (z3 ** q2_neg F zeta))
   (Q6 (z2 ** zeta) (z1 ** (zeta ** zeta) ** zeta) (z5 ** q2_neg F zeta ** zeta)).
Proof.
  unfold frob12s, q12_frobs, z. cbn [e0 e1 d0 d1 d2]. fold t1 t2 t12.
  change (2 mod 12)%nat with 2%nat. fold zeta. change (q6_frobs F frob_fq2_c1 t1 t2) with frob6s.
  unfold frob6s, q6_frobs. cbn [d0 d1 d2]. change (2 mod 6)%nat with 2%nat. fold frob2s. rewrite !(frob2s_even _ 2) by reflexivity.
  rewrite t1_2, t2_2. reflexivity.
Qed.
Lemma frob12_4 : frob12s z 4 = Q12 (Q6 z0 (z4 ** q2_neg F zeta) (z3 ** (zeta ** zeta)))
   (Q6 (z2 ** (zeta ** zeta)) (z1 ** q2_neg F zeta ** (zeta ** zeta)) (z5 ** (zeta ** zeta) ** (zeta ** zeta))).
Proof.
  unfold frob12s, q12_frobs, z. cbn [e0 e1 d0 d1 d2]. fold t1 t2 t12.
  change (4 mod 12)%nat with 4%nat. rewrite t12_4. change (q6_frobs F frob_fq2_c1 t1 t2) with frob6s.
  unfold frob6s, q6_frobs. cbn [d0 d1 d2]. change (4 mod 6)%nat with 4%nat. fold frob2s. rewrite !(frob2s_even _ 4) by reflexivity.
  rewrite t1_4, t2_4. reflexivity.
Qed.
Hypothesis CY : q12_mul F (frob12s z 4) z = frob12s z 2.
Lemma cyc_square_aux : cyclotomic_square F z = q12_mul F z z.
Proof.
  revert CY. rewrite frob12_2, frob12_4. unfold cyclotomic_square, fp4_square, z. rewrite !q12_mul_coords. cbn [e0 e1 d0 d1 d2].
  rewrite !q6_mul_coords. unfold vv, q6_v, q6_add. cbn [e0 e1 d0 d1 d2].
  rewrite !q2_nonres_mul, !q2_sq_mul, !q2_dbl_add. fold (ExtProofs.xi F). pose proof zeta_sq as HZ. revert HZ. generalize zeta (ExtProofs.xi F).
  clear z. intros w x HZ CY.
  assert (E0 := f_equal (fun a => d0 (e0 a)) CY). assert (E1 := f_equal (fun a => d1 (e0 a)) CY). assert (E2 := f_equal (fun a => d2 (e0 a)) CY).
  assert (G0 := f_equal (fun a => d0 (e1 a)) CY). assert (G1 := f_equal (fun a => d1 (e1 a)) CY). assert (G2 := f_equal (fun a => d2 (e1 a)) CY).
  cbn [e0 e1 d0 d1 d2] in *. clear CY.
  assert (HZ' : w ** w ** w = q2_neg F (q2_1 F)) by (rewrite HZ; transitivity (w ** w ++' q2_neg F w); [ring|rewrite HZ; ring]).
  apply q12_eq; cbn [e0 e1]; apply q6_eq; cbn [d0 d1 d2].
  - eapply (from_eq (q2_add F (q2_1 F) (q2_1 F))); [exact E0|]. ring [HZ HZ'].
  - eapply (from_eq (q2_neg F w ++' q2_neg F w)); [exact E1|]. ring [HZ HZ'].
  - eapply (from_eq ((w ** w) ++' (w ** w))); [exact E2|]. ring [HZ HZ'].
  - cyc_tac w G0 HZ HZ'.
  - cyc_tac w G1 HZ HZ'.
  - cyc_tac w G2 HZ HZ'.
Qed.
End Cyc.

(** ** Integer exponents. *)
Definition pz (f : F12) (e : Z) : F12 := pw12 f (Z.to_nat e).
Lemma pz_add f a b : 0 <= a -> 0 <= b -> pz f (a + b) = q12_mul F (pz f a) (pz f b).
Proof. intros. unfold pz. rewrite Z2Nat.inj_add by lia. apply (rpow_add _ _ _ _ _ _ r12). Qed.
Lemma pz_mul f a b : 0 <= a -> 0 <= b -> pz f (a * b) = pz (pz f a) b.
Proof. intros. unfold pz. rewrite Z2Nat.inj_mul by lia. apply (rpow_mul _ _ _ _ _ _ r12). Qed.
Lemma pz_1 f : pz f 1 = f. Proof. unfold pz. change (Z.to_nat 1) with 1%nat. apply (rpow_1_r _ _ _ _ _ _ r12). Qed.
Lemma pz_0 f : pz f 0 = q12_1 F. Proof. reflexivity. Qed.
Lemma pz_one e : pz (q12_1 F) e = q12_1 F. Proof. apply (rpow_1_l _ _ _ _ _ _ r12). Qed.
Lemma qpos : 0 < Q_MOD. Proof. rewrite Q_MOD_val. reflexivity. Qed.
Lemma toQ k : (Q ^ k)%nat = Z.to_nat (Q_MOD ^ Z.of_nat k).
Proof. apply Nat2Z.inj. rewrite Nat2Z.inj_pow, !Z2Nat.id; try reflexivity; [apply Z.pow_nonneg|]; pose proof qpos; lia. Qed.
Lemma frob12s_pz f k : frob12s f k = pz f (Q_MOD ^ Z.of_nat k).
Proof. rewrite frob12s_pow, toQ. reflexivity. Qed.
Lemma conj_pz f : q12_conj F f = pz f (Q_MOD ^ 6).
Proof. rewrite conj12_pow, toQ. reflexivity. Qed.
Lemma pz_fermat f : pz f (Q_MOD ^ 12) = f.
Proof. change 12 with (Z.of_nat 12) at 1. unfold pz. rewrite <- toQ. apply fermat12. Qed.
Lemma q12_cancel (a b c : F12) : a <> q12_0 F -> q12_mul F a b = q12_mul F a c -> b = c.
Proof.
  intros Ha H. pose proof (q12_inv_l F fq_anisotropic xi_not_cube v_not_square a Ha) as IL.
  transitivity (q12_mul F (q12_mul F (q12_inv F a) a) b); [rewrite IL; ring|].
  transitivity (q12_mul F (q12_inv F a) (q12_mul F a b)); [ring|]. rewrite H.
  transitivity (q12_mul F (q12_mul F (q12_inv F a) a) c); [ring|]. rewrite IL. ring.
Qed.
Lemma pz_order f : f <> q12_0 F -> pz f (Q_MOD ^ 12 - 1) = q12_1 F.
Proof.
  intros Hf. apply (q12_cancel f); [exact Hf|]. transitivity f; [|ring]. rewrite <- (pz_fermat f) at 3.
  replace (Q_MOD ^ 12) with (1 + (Q_MOD ^ 12 - 1)) at 2 by ring. rewrite pz_add, pz_1; [reflexivity|lia|].
  pose proof (Z.pow_pos_nonneg Q_MOD 12 qpos). lia.
Qed.

(** The cyclotomic exponent q^4 - q^2 + 1. *)
Definition NN : Z := Q_MOD ^ 4 - Q_MOD ^ 2 + 1.
Lemma NNpos : 0 < NN. Proof. unfold NN. rewrite Q_MOD_val. vm_compute. reflexivity. Qed.
Lemma NN_q6 : Q_MOD ^ 6 mod NN = (-1) mod NN. Proof. unfold NN. rewrite Q_MOD_val. vm_compute. reflexivity. Qed.

Section Sub.
Variable g : F12.
Hypothesis GN : pz g NN = q12_1 F.
Definition pe (a : Z) : F12 := pz g (a mod NN).
Lemma pe_red a : 0 <= a -> pz g a = pe a.
Proof.
  intros Ha. unfold pe. pose proof NNpos as NP. rewrite (Z.div_mod a NN) at 1 by lia.
  pose proof (Z.mod_pos_bound a NN NP). pose proof (Z.div_pos a NN Ha NP).
  rewrite pz_add, pz_mul, GN, pz_one; try lia. ring.
Qed.
Lemma pe_mod a b : a mod NN = b mod NN -> pe a = pe b. Proof. unfold pe. intros ->. reflexivity. Qed.
Lemma pe_add a b : q12_mul F (pe a) (pe b) = pe (a + b).
Proof.
  pose proof NNpos as NP. pose proof (Z.mod_pos_bound a NN NP). pose proof (Z.mod_pos_bound b NN NP).
  unfold pe at 1 2. rewrite <- pz_add, pe_red by lia. apply pe_mod. rewrite <- Z.add_mod by lia. reflexivity.
Qed.
Lemma pe_pow a n : 0 <= n -> pz (pe a) n = pe (a * n).
Proof.
  intros Hn. pose proof NNpos as NP. pose proof (Z.mod_pos_bound a NN NP).
  unfold pe at 1. rewrite <- pz_mul, pe_red by (try apply Z.mul_nonneg_nonneg; lia). apply pe_mod. apply Zmult_mod_idemp_l.
Qed.
Lemma pe_frobs a k : frob12s (pe a) k = pe (a * Q_MOD ^ Z.of_nat k).
Proof. rewrite frob12s_pz. apply pe_pow. apply Z.pow_nonneg. pose proof qpos. lia. Qed.
Lemma pe_conj a : q12_conj F (pe a) = pe (- a).
Proof.
  rewrite conj_pz, pe_pow by (apply Z.pow_nonneg; pose proof qpos; lia). apply pe_mod.
  rewrite <- Zmult_mod_idemp_r, NN_q6, Zmult_mod_idemp_r. f_equal. ring.
Qed.
Lemma pe_csq a : cyclotomic_square F (pe a) = pe (2 * a).
Proof.
  assert (C : q12_mul F (frob12s (pe a) 4) (pe a) = frob12s (pe a) 2).
  { rewrite !pe_frobs, pe_add. apply pe_mod. change (Z.of_nat 4) with 4. change (Z.of_nat 2) with 2.
    replace (a * Q_MOD ^ 4 + a) with (a * Q_MOD ^ 2 + a * NN) by (unfold NN; ring). apply Z_mod_plus_full. }
  revert C. rewrite <- Z.add_diag, <- pe_add. generalize (pe a). intros z C.
  destruct z as [[z0 z4 z3] [z2 z1 z5]]. apply cyc_square_aux, C.
Qed.
Lemma pe_cexp x a : word x -> cyclotomic_exp F x (pe a) = pe (x * a).
Proof.
  intros Hx. unfold cyclotomic_exp. pose proof (word_bits_be_value x Hx) as V.
  transitivity (pe (be_value 2 (word_bits_be x) * a)); [|rewrite V; reflexivity].
  assert (G : forall l, (forall d, In d l -> d = 0 \/ d = 1) -> forall k,
     fold_left (fun res bit => if bit =? 1 then q12_mul F (cyclotomic_square F res) (pe a) else cyclotomic_square F res) l (pe (k * a))
     = pe (fold_left (fun acc d => 2 * acc + d) l k * a)).
  { induction l as [|d l IH]; intros B k; [reflexivity|]. cbn [fold_left]. rewrite pe_csq.
    assert (BD := B d (or_introl eq_refl)). destruct BD as [->| ->].
    - cbn [Z.eqb]. replace (2 * (k * a)) with ((2 * k + 0) * a) by ring. apply IH. intros d Hd. apply B. right. exact Hd.
    - cbn [Z.eqb Pos.eqb]. rewrite pe_add. replace (2 * (k * a) + a) with ((2 * k + 1) * a) by ring. apply IH. intros d Hd. apply B. right. exact Hd. }
  cbv zeta. rewrite <- (pz_0 g) at 1. rewrite pe_red by lia. change (pe 0) with (pe (0 * a)). rewrite G by (apply word_bits_be_bit).
  unfold be_value. reflexivity.
Qed.
End Sub.

Lemma some_inj {A} (x y : A) : Some x = Some y -> x = y. Proof. intros H. injection H as H. exact H. Qed.
(** ** The whole exponentiation. *)
Definition fe (f : F12) : option F12 := final_exp F BN_X frob_fq2_c1 frob_fq6_c1 frob_fq6_c2 frob_fq12_c1 f.
Lemma NN_R : R_MOD * (NN / R_MOD) = NN.
Proof. unfold NN. rewrite Q_MOD_val, R_MOD_val. vm_compute. reflexivity. Qed.
Lemma r_pos : 0 < R_MOD. Proof. rewrite R_MOD_val. reflexivity. Qed.
Lemma fe_num : ((Q_MOD ^ 6 - 1) * (Q_MOD ^ 2 + 1)) * (NN / R_MOD) = (Q_MOD ^ 12 - 1) / R_MOD.
Proof.
  apply Z.div_unique_exact; [pose proof r_pos; lia|].
  replace (R_MOD * ((Q_MOD ^ 6 - 1) * (Q_MOD ^ 2 + 1) * (NN / R_MOD))) with ((Q_MOD ^ 6 - 1) * (Q_MOD ^ 2 + 1) * (R_MOD * (NN / R_MOD))) by ring.
  rewrite NN_R. unfold NN. ring.
Qed.
Lemma fe_num2 : ((Q_MOD ^ 6 - 1) * (Q_MOD ^ 2 + 1)) * NN = Q_MOD ^ 12 - 1.
Proof. unfold NN. ring. Qed.
Definition fexp (q x : Z) : Z :=
  let y6 := 2 * (- (x * (x * (x * 1)) + x * (x * (x * 1)) * q)) + - (x * 1 + x * (x * 1) * q) + - (x * (x * 1)) in
  let t1 := - (x * 1 * q) + - (x * (x * 1)) + y6 in
  let t1 := 2 * (2 * t1 + (y6 + x * (x * 1) * q ^ 2)) in
  2 * (t1 + -1) + (t1 + (1 * q + 1 * q ^ 2 + 1 * q ^ 2 * q)).
Lemma fexp_val : fexp Q_MOD BN_X mod NN = (NN / R_MOD) mod NN.
Proof. unfold NN. rewrite Q_MOD_val, R_MOD_val. vm_compute. reflexivity. Qed.

Theorem final_exp_pow f : f <> q12_0 F -> fe f = Some (pz f ((Q_MOD ^ 12 - 1) / R_MOD)).
Proof.
  intros Hf. unfold fe, final_exp.
  rewrite (proj2 (q12_invert_spec F fq_anisotropic xi_not_cube v_not_square f) Hf).
  pose proof (q12_inv_l F fq_anisotropic xi_not_cube v_not_square f Hf) as IL.
  change (q12_frobs F frob_fq2_c1 frob_fq6_c1 frob_fq6_c2 frob_fq12_c1) with frob12s.
  pose proof qpos as QP.
  assert (P6 : 0 <= Q_MOD ^ 6 - 1) by (pose proof (Z.pow_pos_nonneg Q_MOD 6 QP); lia).
  assert (E1 : q12_mul F (q12_inv F f) (q12_conj F f) = pz f (Q_MOD ^ 6 - 1)).
  { rewrite conj_pz. replace (Q_MOD ^ 6) with (1 + (Q_MOD ^ 6 - 1)) at 1 by ring. rewrite pz_add, pz_1 by lia.
    transitivity (q12_mul F (q12_mul F (q12_inv F f) f) (pz f (Q_MOD ^ 6 - 1))); [ring|]. rewrite IL. ring. }
  rewrite E1. set (h := pz f (Q_MOD ^ 6 - 1)).
  assert (E2 : q12_mul F (frob12s h 2) h = pz f ((Q_MOD ^ 6 - 1) * (Q_MOD ^ 2 + 1))).
  { rewrite frob12s_pz. change (Z.of_nat 2) with 2. unfold h. rewrite (pz_mul f (Q_MOD ^ 6 - 1)) by (pose proof (Z.pow_nonneg Q_MOD 2); lia).
    rewrite pz_add, pz_1 by (try apply Z.pow_nonneg; lia). reflexivity. }
  rewrite E2. clear E1 E2 IL.
  assert (P2 : 0 <= (Q_MOD ^ 6 - 1) * (Q_MOD ^ 2 + 1)) by (pose proof (Z.pow_nonneg Q_MOD 2); apply Z.mul_nonneg_nonneg; lia).
  pose proof NNpos as NP.
  assert (GN : pz (pz f ((Q_MOD ^ 6 - 1) * (Q_MOD ^ 2 + 1))) NN = q12_1 F).
  { rewrite <- pz_mul, fe_num2 by lia. apply pz_order, Hf. }
  assert (RP : 0 < R_MOD) by (rewrite R_MOD_val; reflexivity).
  pose proof (Z.div_pos NN R_MOD ltac:(lia) RP) as DP.
  assert (EF : pz f ((Q_MOD ^ 12 - 1) / R_MOD) = pz (pz f ((Q_MOD ^ 6 - 1) * (Q_MOD ^ 2 + 1))) (NN / R_MOD))
    by (rewrite <- fe_num; exact (pz_mul f ((Q_MOD ^ 6 - 1) * (Q_MOD ^ 2 + 1)) (NN / R_MOD) P2 DP)).
  rewrite EF. clear EF. revert GN. generalize (pz f ((Q_MOD ^ 6 - 1) * (Q_MOD ^ 2 + 1))). clear h. intros g GN.
  rewrite <- (pz_1 g), (pe_red g GN 1) by lia. rewrite (pe_pow g GN 1 (NN / R_MOD)) by exact DP.
  assert (W : word BN_X) by (split; vm_compute; [discriminate|reflexivity]).
  cbv zeta. rewrite !(pe_cexp g GN BN_X) by exact W.
  rewrite ?(pe_frobs g GN), ?(pe_conj g GN), ?(pe_add g GN), ?(pe_csq g GN).
  repeat (rewrite ?(pe_frobs g GN), ?(pe_conj g GN), ?(pe_add g GN), ?(pe_csq g GN)).
  apply (f_equal Some). transitivity (pe g (NN / R_MOD)); [|apply (f_equal (pe g)); ring].
  transitivity (pe g (fexp Q_MOD BN_X)); [|exact (pe_mod g _ _ fexp_val)].
  apply (f_equal (pe g)). unfold fexp. cbv zeta. change (Z.of_nat 1) with 1. change (Z.of_nat 2) with 2. rewrite !Z.pow_1_r. ring.
Qed.
(** [r] divides q^12 - 1, so the result has order dividing r. *)
Lemma r_divides : (Q_MOD ^ 12 - 1) / R_MOD * R_MOD = Q_MOD ^ 12 - 1.
Proof.
  rewrite <- fe_num. replace ((Q_MOD ^ 6 - 1) * (Q_MOD ^ 2 + 1) * (NN / R_MOD) * R_MOD) with ((Q_MOD ^ 6 - 1) * (Q_MOD ^ 2 + 1) * (R_MOD * (NN / R_MOD))) by ring.
  rewrite NN_R. unfold NN. ring.
Qed.
Lemma fe_pos : 0 <= (Q_MOD ^ 12 - 1) / R_MOD.
Proof. pose proof (Z.pow_pos_nonneg Q_MOD 12 qpos). apply Z.div_pos; [lia|apply r_pos]. Qed.
Theorem final_exp_order f : f <> q12_0 F -> exists g, fe f = Some g /\ pz g R_MOD = q12_1 F.
Proof.
  intros Hf. eexists. split; [apply final_exp_pow, Hf|]. assert (RP : 0 < R_MOD) by (rewrite R_MOD_val; reflexivity).
  rewrite <- pz_mul, r_divides; [apply pz_order, Hf|apply fe_pos|lia].
Qed.
Lemma final_exp_zero : fe (q12_0 F) = None.
Proof. unfold fe, final_exp. rewrite (proj1 (q12_invert_spec F fq_anisotropic xi_not_cube v_not_square (q12_0 F)) eq_refl). reflexivity. Qed.
