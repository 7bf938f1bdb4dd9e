(** Property C71: the pairing computed with the limb-level [square] and [invert] of Fq, which lose a carry on some elements
    (properties C02, C03).
    Specification: [ate_prepare], [fe], [ate_pairing] over exact arithmetic (C53, C54, C62); FieldSpec.v ([drops_carry],
    [carry_free]); the elements of Fq2 a run squares are listed by the [.._squares] functions of PairSqModel.v. *)
From Coq Require Import ZArith List Bool Field Lia Znumtheory.
From Verif Require Import LimbModel LimbProofs FieldModel FieldSpec FieldProofs PowProofs FieldMore Primes ClaimsField RingPow Algebra ExtModel ExtSpec ExtParams ExtProofs ExtFrob
  CurveSpec CurveGroup GroupLib AbTac CurveAb CurveParams CurveOrder WeierSqModel WeierSqProofs ClaimsWeierSq.
From Verif Require Import PairingModel PairingSpec FinalExp PairingRefine PairingFinal BilinAlg PairBn G2Order PairBilin PairNonDeg ClaimsBilinear.
From Verif Require Import PairSqModel PairSqProofs.
Import ListNotations.
Local Open Scope Z_scope.
Local Notation F := FqFld.

(** ** [invert] on the elements of a limb field (macros/field.rs, FieldModel.v [finvert]). *)
Section Invert.
Variables (P : fparams) (m : Z).
Hypothesis OKP : params_ok P m.
Hypothesis PR : prime m.
Local Notation K := (LimbFld P m OKP PR).
Definition lf_invert (a : K) : option K :=
  match finvert P (lf_limbs m a) with
  | Some i => match bool_dec (redb m i) true with left H => Some (exist _ i H) | right _ => None end
  | None => None
  end.
Lemma redb_mul2 a b : redb m a = true -> redb m b = true -> redb m (fmul P a b) = true.
Proof. intros A B. exact (proj2_sig (lf_mul P m OKP (exist _ a A) (exist _ b B))). Qed.
Lemma redb_sq2 a : redb m a = true -> redb m (fsquare P a) = true.
Proof. intros A. exact (redb_square P m OKP (exist _ a A)). Qed.
Lemma redb_ladder a bits : redb m a = true -> forall acc, redb m acc = true ->
  redb m (fold_left (fun acc bit => let acc := fsquare P acc in if bit =? 1 then fmul P acc a else acc) bits acc) = true.
Proof.
  intros A. induction bits as [|b bits IH]; intros acc H; [exact H|]. cbn [fold_left]. cbv zeta. apply IH.
  destruct (b =? 1); [apply redb_mul2; [apply redb_sq2, H|exact A]|apply redb_sq2, H].
Qed.
(** It is the limb function. *)
Lemma lf_invert_limbs (a : K) : option_map (lf_limbs m) (lf_invert a) = finvert P (lf_limbs m a).
Proof.
  unfold lf_invert. destruct (finvert P (lf_limbs m a)) as [i|] eqn:E; [|reflexivity].
  destruct (bool_dec (redb m i) true) as [H|H]; [reflexivity|]. exfalso. apply H. destruct a as [a A]. cbn [lf_limbs proj1_sig] in E.
  unfold finvert, invert in E. destruct (eqb4 a zero4); [discriminate E|]. injection E as <-. unfold pow.
  assert (R1 : redb m (fR P) = true) by exact (proj2_sig (lf_1 P m OKP)).
  destruct (eqb4 (little_fermat (fmod P)) zero4); [exact R1|]. destruct (eqb4 a zero4); [exact (proj2_sig (lf_0 P m OKP))|].
  exact (redb_ladder a _ A _ R1).
Qed.
Lemma lf_invert_exact (a : K) : carry_free m (lf_val P m a) (m - 2) -> lf_invert a = kinvert a.
Proof.
  intros CF. pose proof (lf_invert_limbs a) as L. unfold kinvert. destruct (kis0 a) eqn:Z.
  - apply keqb_eq in Z. rewrite Z in *. assert (Z' : finvert P (lf_limbs m (k0 : K)) = None) by (apply (invert_zero P m OKP), (rep_zero P m OKP)).
    rewrite Z' in L. destruct (lf_invert k0); [discriminate L|reflexivity].
  - assert (N : lf_val P m a <> 0). { intros E. assert (X : a = (k0 : K)) by (apply (lf_val_inj P m OKP); rewrite E; symmetry; apply (lf_val_0 P m OKP)). rewrite X in Z. unfold kis0 in Z. rewrite keqb_refl in Z. discriminate Z. }
    destruct (invert_spec P m OKP PR _ _ (lf_rep P m OKP a) N CF) as (i & y & E & R & V). rewrite E in L.
    destruct (lf_invert a) as [j|]; [|discriminate L]. injection L as L. apply f_equal.
    assert (J : lf_val P m j = y) by (apply (lf_val_rep P m OKP); rewrite L; exact R).
    assert (U : kmul a j = (k1 : K)). { apply (lf_val_inj P m OKP). change (lf_val P m (lf_mul P m OKP a j) = lf_val P m (lf_1 P m OKP)). rewrite (lf_val_mul P m OKP), (lf_val_1 P m OKP), J. exact V. }
    assert (NA : a <> (k0 : K)) by (intros X; rewrite X in Z; unfold kis0 in Z; rewrite keqb_refl in Z; discriminate Z).
    pose proof (F_R (kth K)) as RT. pose proof (Finv_l (kth K) _ NA) as IV.
    rewrite <- (Ring_theory.Rmul_1_l RT j), <- IV, <- (Ring_theory.Rmul_assoc RT), U, (Ring_theory.Rmul_comm RT), (Ring_theory.Rmul_1_l RT). reflexivity.
Qed.
End Invert.

Definition fq_invert : F -> option F := lf_invert fq Q_MOD fq_ok Q_MOD_prime.
Theorem C71_invert_is_the_code a : option_map (lf_limbs Q_MOD) (fq_invert a) = finvert fq (lf_limbs Q_MOD a).
Proof. exact (lf_invert_limbs fq Q_MOD fq_ok Q_MOD_prime a). Qed.

(** The preparation of a G2 point (for the digits [ds]), the final exponentiation and the pairing on limbs. *)
Local Notation t61 := (nth 1 frob_fq6_c1 (q2_0 F)). Local Notation t62 := (nth 2 frob_fq6_c1 (q2_0 F)).
Definition limb_prepare (ds : list Z) (g : affine2 F) : prepared F := s_prepare F fq_sq t61 t62 xi_to_q_minus_1_over_2 ds g.
Definition limb_final_exp (f : q12 F) : option (q12 F) := s_final_exp F fq_sq fq_invert BN_X frob_fq2_c1 frob_fq6_c1 frob_fq6_c2 frob_fq12_c1 f.
Definition limb_pairing (g1 : affine1 F) (g2 : affine2 F) : option (q12 F) := s_pairing F fq_sq t61 t62 xi_to_q_minus_1_over_2 ate_digits limb_final_exp g1 g2.

(** The runs that lose no carry: in the squares over Fq2 ([fq2_lost], C65), and in the single inversion in Fq, of the norm of
    an element of Fq2. *)
Definition no_loss2 (l : list (q2 F)) : Prop := forall a, In a l -> fq2_lost a = false.
Definition exact_prepare (ds : list Z) (g : affine2 F) : Prop := no_loss2 (prepare_squares F t61 t62 xi_to_q_minus_1_over_2 ds g).
Definition norm2 (a : q2 F) : F := kadd (kmul (c0 a) (c0 a)) (kmul (c1 a) (c1 a)).
Definition exact_final (f : q12 F) : Prop :=
  no_loss2 (final_exp_squares F BN_X frob_fq2_c1 frob_fq6_c1 frob_fq6_c2 frob_fq12_c1 f) /\
  fq_lost (c0 (inverted2 F f)) = false /\ fq_lost (c1 (inverted2 F f)) = false /\ carry_free Q_MOD (fq_val (norm2 (inverted2 F f))) (Q_MOD - 2).

Lemma fq2_exact a : s_sq F fq_sq a = q2_mul F a a <-> fq2_lost a = false.
Proof. destruct C65_curves as (_ & (_ & A) & _). exact (A a). Qed.
Lemma fq_exact a : fq_sq a = kmul a a <-> fq_lost a = false.
Proof. destruct C65_curves as ((_ & A) & _). exact (A a). Qed.
Lemma no_loss_exact2 l : no_loss2 l -> exact2 F fq_sq l.
Proof. intros H. apply Forall_forall. intros a I. apply fq2_exact, H, I. Qed.

Theorem C71_prepare_when_exact ds g : exact_prepare ds g -> limb_prepare ds g = prepare F t61 t62 xi_to_q_minus_1_over_2 ds g.
Proof. intros H. apply ex_prepare, no_loss_exact2, H. Qed.
Theorem C71_final_exp_when_exact f : exact_final f -> limb_final_exp f = fe f.
Proof.
  intros (H & H0 & H1 & CF). unfold limb_final_exp, fe. apply ex_final_exp; [apply no_loss_exact2, H|].
  split; [apply fq_exact, H0|]. split; [apply fq_exact, H1|]. exact (lf_invert_exact fq Q_MOD fq_ok Q_MOD_prime _ CF).
Qed.
(** The pairing on limbs is the optimal ate pairing when the preparation of Q and the final exponentiation of the Miller
    value lose no carry.  Nothing is asked of the Miller loop. *)
Definition exact_run (P : affine1 F) (Q : affine2 F) : Prop :=
  exact_prepare ate_digits Q /\ forall f, ate_multi [(P, ate_prepare Q)] = Some f -> exact_final f.
Lemma bind_same {A B} (x y : option A) (f g : A -> option B) : x = y -> (forall a, y = Some a -> f a = g a) -> bind x f = bind y g.
Proof. intros -> H. destruct y; [exact (H a eq_refl)|reflexivity]. Qed.
Theorem C71_pairing_when_exact P Q : exact_run P Q -> limb_pairing P Q = ate_pairing P Q.
Proof.
  intros [H G]. unfold limb_pairing, s_pairing, ate_pairing, pairing. apply bind_same.
  - apply (f_equal (fun b => multi_miller_loop F ate_digits [(P, b)])), C71_prepare_when_exact, H.
  - intros f E. apply C71_final_exp_when_exact, G, E.
Qed.
(** So such runs are bilinear. *)
Theorem C71_bilinear_when_exact P Q aP bQ j k e : in_g1 P -> in_g2 Q ->
  aff1_point aP = pt_zmul j (aff1_point P) -> aff2_point bQ = pt_zmul k (aff2_point Q) -> exact_run P Q -> exact_run aP bQ ->
  limb_pairing P Q = Some e -> limb_pairing aP bQ = Some (gt_power e (j * k)).
Proof.
  intros HP HQ HJ HK E1 E2 E. rewrite (C71_pairing_when_exact _ _ E1) in E. rewrite (C71_pairing_when_exact _ _ E2). exact (C62_scalars P Q aP bQ j k e HP HQ HJ HK E).
Qed.
(** The same for the product over several pairs, as the Groth16 verifier computes it. *)
Theorem C71_product_when_exact (pairs : list (affine1 F * affine2 F)) :
  (forall ab, In ab pairs -> exact_prepare ate_digits (snd ab)) ->
  (forall f, ate_multi (map (fun ab => (fst ab, ate_prepare (snd ab))) pairs) = Some f -> exact_final f) ->
  bind (ate_multi (map (fun ab => (fst ab, limb_prepare ate_digits (snd ab))) pairs)) limb_final_exp =
  bind (ate_multi (map (fun ab => (fst ab, ate_prepare (snd ab))) pairs)) fe.
Proof.
  intros H G. apply bind_same; [|intros f E; apply C71_final_exp_when_exact, G, E].
  apply (f_equal ate_multi). apply map_ext_in. intros ab I. apply (f_equal (pair (fst ab))), C71_prepare_when_exact, H, I.
Qed.

(** ** What the first line of the loop tells. *)
Section FirstLine.
Variables (K : Fld) (sq1 : K -> K).
Add Field flK : (kth K).
Local Open Scope fld_scope.
Variables (lost : K -> bool) (dl : K).
Hypothesis FORM : forall a, sq1 a = a * a + (if lost a then dl else 0).
Hypothesis L0 : lost 0 = false.
Hypothesis L1 : lost 1 = false.
Hypothesis DN : dl <> 0.
Hypothesis N2 : (1 + 1 : K) <> 0.
Hypothesis N3 : (1 + 1 + 1 : K) <> 0.
Lemma s_one : s_sq K sq1 (q2_1 K) = q2_mul K (q2_1 K) (q2_1 K).
Proof. unfold s_sq, q2_mul, q2_1, kdbl. cbn [c0 c1]. rewrite !FORM, L0, L1. apply f_equal2; ring. Qed.
Lemma six_cancel (x y : K) : - (kdbl (kdbl x + x)) = - (kdbl (kdbl y + y)) -> x = y.
Proof.
  intros E. apply (kmul_cancel_l K (- ((1 + 1) * (1 + 1 + 1) : K))).
  - intros Z. apply (kmul_neq0 K _ _ N2 N3), (kneg_eq0 K), Z.
  - transitivity (- (kdbl (kdbl x + x))); [unfold kdbl; ring|]. rewrite E. unfold kdbl. ring.
Qed.
Lemma q2_6_cancel (a b : q2 K) : q2_neg K (q2_dbl K (q2_add K (q2_dbl K a) a)) = q2_neg K (q2_dbl K (q2_add K (q2_dbl K b) b)) -> a = b.
Proof.
  destruct a as [a0 a1], b as [b0 b1]. unfold q2_neg, q2_dbl, q2_add. cbn [c0 c1]. intros E. injection E as E0 E1.
  apply six_cancel in E0, E1. rewrite E0, E1. reflexivity.
Qed.
Lemma mul_one_sq (a : q2 K) : q2_mul K a (q2_mul K (q2_1 K) (q2_1 K)) = a.
Proof. destruct a as [x y]. unfold q2_mul, q2_1. cbn [c0 c1]. apply f_equal2; ring. Qed.
(** The first line through Q and Q is right only if the square of x, and the difference of the squares of y + 1 and y, are. *)
Lemma first_line x y : snd (s_double_eval K sq1 (Jac K x y (q2_1 K))) = snd (double_eval K (Jac K x y (q2_1 K))) ->
  s_sq K sq1 x = q2_mul K x x /\ lost (c0 y + 1) = lost (c0 y).
Proof.
  unfold s_double_eval, double_eval. cbv zeta. cbn [jx jy jz snd]. rewrite !sqm, s_one, !mul_one_sq. intros E.
  apply pair_equal_spec in E as [E E2]. apply pair_equal_spec in E as [E0 E1]. clear E2. split; [apply q2_6_cancel, E1|].
  clear E1. destruct y as [y0 y1]. unfold s_sq, q2_mul, q2_add, q2_sub, q2_dbl, q2_1 in E0. cbn [c0 c1] in E0 |- *. injection E0 as E0 _.
  rewrite !FORM in E0. replace (0 + y1) with y1 in E0 by ring. replace (1 + y0) with (y0 + 1) in E0 by ring.
  assert (C : forall e e' : K, kdbl ((y0 + 1) * (y0 + 1) + e - (y1 * y1 + (if lost y1 then dl else 0)) - (y0 * y0 + e' - (y1 * y1 + (if lost y1 then dl else 0))) - (1 * 1 - 0 * 0)) =
    kdbl ((y0 + 1) * (y0 + 1) - y1 * y1 - (y0 * y0 - y1 * y1) - (1 * 1 - 0 * 0)) -> e = e').
  { intros e e' X. unfold kdbl in X. apply (kmul_cancel_l K (1 + 1) _ _ N2). apply (k_cancel K ((y0 + 1) * (y0 + 1) - y1 * y1 - (y0 * y0 - y1 * y1) - (1 * 1 - 0 * 0) + ((y0 + 1) * (y0 + 1) - y1 * y1 - (y0 * y0 - y1 * y1) - (1 * 1 - 0 * 0)) - (1 + 1) * e')).
    match type of X with ?l = ?r => transitivity l; [ring|]; transitivity r; [exact X|ring] end. }
  apply C in E0. destruct (lost (y0 + 1)), (lost y0); try reflexivity; exfalso; apply DN; [exact E0|symmetry; exact E0].
Qed.
End FirstLine.
(** The lines prepared for a finite point are right only if x loses no carry and y and y + 1 agree in theirs. *)
Lemma s_prepare_head (K : Fld) sq1 k1 k2 k3 d ds x y : hd_error (coeffs K (s_prepare K sq1 k1 k2 k3 (d :: ds) (Aff2 K x y false))) = Some (snd (s_double_eval K sq1 (Jac K x y (q2_1 K)))).
Proof.
  unfold s_prepare. cbn [a2inf a2x a2y s_prepare_loop]. destruct (s_double_eval K sq1 (Jac K x y (q2_1 K))) as [t c].
  destruct (d =? 1); [|destruct (d =? -1)].
  - destruct (s_add_eval K sq1 t x y) as [t' c']. destruct (s_prepare_loop K sq1 ds x y t') as [t'' cs]. destruct (s_add_eval K sq1 t'' _ _) as [u ?]. destruct (s_add_eval K sq1 u _ _). reflexivity.
  - destruct (s_add_eval K sq1 t x (q2_neg K y)) as [t' c']. destruct (s_prepare_loop K sq1 ds x y t') as [t'' cs]. destruct (s_add_eval K sq1 t'' _ _) as [u ?]. destruct (s_add_eval K sq1 u _ _). reflexivity.
  - destruct (s_prepare_loop K sq1 ds x y t) as [t'' cs]. destruct (s_add_eval K sq1 t'' _ _) as [u ?]. destruct (s_add_eval K sq1 u _ _). reflexivity.
Qed.
Lemma prepare_head (K : Fld) k1 k2 k3 d ds x y : hd_error (coeffs K (prepare K k1 k2 k3 (d :: ds) (Aff2 K x y false))) = Some (snd (double_eval K (Jac K x y (q2_1 K)))).
Proof.
  unfold prepare. cbn [a2inf a2x a2y prepare_loop]. destruct (double_eval K (Jac K x y (q2_1 K))) as [t c].
  destruct (d =? 1); [|destruct (d =? -1)].
  - destruct (add_eval K t x y) as [t' c']. destruct (prepare_loop K ds x y t') as [t'' cs]. destruct (add_eval K t'' _ _) as [u ?]. destruct (add_eval K u _ _). reflexivity.
  - destruct (add_eval K t x (q2_neg K y)) as [t' c']. destruct (prepare_loop K ds x y t') as [t'' cs]. destruct (add_eval K t'' _ _) as [u ?]. destruct (add_eval K u _ _). reflexivity.
  - destruct (prepare_loop K ds x y t) as [t'' cs]. destruct (add_eval K t'' _ _) as [u ?]. destruct (add_eval K u _ _). reflexivity.
Qed.
Lemma fq_lost_0 : fq_lost k0 = false. Proof. vm_compute. reflexivity. Qed.
Lemma fq_lost_1 : fq_lost k1 = false. Proof. vm_compute. reflexivity. Qed.
Lemma limb_head d ds x y : hd_error (coeffs F (limb_prepare (d :: ds) (Aff2 F x y false))) = Some (snd (s_double_eval F fq_sq (Jac F x y (q2_1 F)))).
Proof. unfold limb_prepare. apply s_prepare_head. Qed.
Theorem C71_prepare_only_if d ds x y : limb_prepare (d :: ds) (Aff2 F x y false) = prepare F t61 t62 xi_to_q_minus_1_over_2 (d :: ds) (Aff2 F x y false) ->
  fq2_lost x = false /\ fq_lost (kadd (c0 y) k1) = fq_lost (c0 y).
Proof.
  intros E. pose proof (eq_trans (eq_sym (limb_head d ds x y)) (eq_trans (f_equal (fun p => hd_error (coeffs F p)) E) (prepare_head F t61 t62 xi_to_q_minus_1_over_2 d ds x y))) as H.
  apply some_inj in H.
  destruct (first_line F fq_sq fq_lost fq_dl fq_sq_form fq_lost_0 fq_lost_1 fq_dl_nz g1_two g1_three x y H) as [A B].
  split; [apply fq2_exact, A|exact B].
Qed.
(** There is a point of the curve whose lines are wrong. *)
Lemma g2_bad_first : Bool.eqb (fq_lost (kadd (c0 g2_bad_y) k1)) (fq_lost (c0 g2_bad_y)) = false.
Proof. vm_compute. reflexivity. Qed.
Lemma bad_prepare d ds : limb_prepare (d :: ds) (Aff2 F g2_bad_x g2_bad_y false) <> prepare F t61 t62 xi_to_q_minus_1_over_2 (d :: ds) (Aff2 F g2_bad_x g2_bad_y false).
Proof.
  intros E. pose proof (proj2 (C71_prepare_only_if d ds g2_bad_x g2_bad_y E)) as H. pose proof g2_bad_first as N. rewrite H, Bool.eqb_reflx in N. discriminate N.
Qed.
Lemma ate_digits_cons : exists d ds, ate_digits = d :: ds.
Proof. exists (hd 0 ate_digits), (tl ate_digits). vm_compute. reflexivity. Qed.
Theorem C71_prepare_refuted : exists x y, on_curve (K := Fq2Fld) g2_param_b (Pt x y) /\
  limb_prepare ate_digits (Aff2 F x y false) <> ate_prepare (Aff2 F x y false).
Proof.
  exists g2_bad_x, g2_bad_y. split; [exact (proj1 (proj1 C65_g2_on_curve_refuted))|]. destruct ate_digits_cons as (d & ds & E). unfold ate_prepare.
  generalize ate_digits E. clear E. intros ds' ->. apply bad_prepare.
Qed.
(** ** Cases that meet the hypotheses. *)
Section Units.
Variable K : Fld.
Add Field unK : (kth K).
Add Ring un2 : (q2_ring K).
Add Ring un6 : (q6_ring K).
Local Open Scope fld_scope.
Local Notation one := (q12_1 K). Local Notation z2 := (q2_0 K). Local Notation i2 := (q2_1 K).
Lemma frobs2_1 t k : q2_frobs K t i2 k = i2. Proof. unfold q2_frobs, q2_1. cbn [c0 c1]. apply f_equal2; ring. Qed.
Lemma frobs2_0 t k : q2_frobs K t z2 k = z2. Proof. unfold q2_frobs, q2_0. cbn [c0 c1]. apply f_equal2; ring. Qed.
Lemma u_frobs t0 t1 t2 t12 k : q12_frobs K t0 t1 t2 t12 one k = one.
Proof.
  unfold q12_frobs, q6_frobs. unfold q12_1, q6_1, q6_0. cbn [d0 d1 d2 e0 e1]. rewrite frobs2_1, !frobs2_0.
  apply (q12_eq K); cbn [e0 e1]; apply (q6_eq K); cbn [d0 d1 d2]; ring.
Qed.
Lemma u_mul : q12_mul K one one = one.
Proof. rewrite (q12_mul_coords K). unfold q12_1. cbn [e0 e1]. apply (q12_eq K); cbn [e0 e1]; ring. Qed.
Lemma u_conj : q12_conj K one = one.
Proof. unfold q12_conj, q12_1. cbn [e0 e1]. apply (q12_eq K); cbn [e0 e1]; ring. Qed.
Lemma fp4_10 : fp4_square K i2 z2 = (i2, z2).
Proof. unfold fp4_square. cbv zeta. rewrite !(q2_sq_mul K), !(q2_nonres_mul K). apply pair_equal_spec. split; ring. Qed.
Lemma fp4_00 : fp4_square K z2 z2 = (z2, z2).
Proof. unfold fp4_square. cbv zeta. rewrite !(q2_sq_mul K), !(q2_nonres_mul K). apply pair_equal_spec. split; ring. Qed.
Lemma dbl2 a : q2_dbl K a = q2_add K a a. Proof. reflexivity. Qed.
Lemma u_cyc : cyclotomic_square K one = one.
Proof.
  unfold cyclotomic_square. unfold q12_1, q6_1, q6_0. cbn [d0 d1 d2 e0 e1]. cbv zeta. rewrite fp4_10, fp4_00. cbv iota beta. rewrite !(q2_nonres_mul K), !dbl2.
  apply (q12_eq K); cbn [e0 e1]; apply (q6_eq K); cbn [d0 d1 d2]; ring.
Qed.
Definition unit_only (l : list (q2 K)) : Prop := Forall (fun a => a = z2 \/ a = i2) l.
Lemma u_cyc_squares : unit_only (cyclotomic_squares K one).
Proof.
  assert (A : q2_add K i2 z2 = i2) by ring. assert (B : q2_add K z2 z2 = z2) by ring.
  unfold cyclotomic_squares, fp4_squares, q12_1, q6_1, q6_0. cbn [d0 d1 d2 e0 e1 app]. rewrite A, B. repeat (apply Forall_cons; [tauto|]). apply Forall_nil.
Qed.
Lemma u_exp x : cyclotomic_exp K x one = one.
Proof. unfold cyclotomic_exp. generalize (word_bits_be x). induction l as [|b l IH]; [reflexivity|]. cbn [fold_left]. cbv zeta. rewrite u_cyc. destruct (Z.eqb b 1); [rewrite u_mul|]; exact IH. Qed.
Lemma u_exp_squares x : unit_only (exp_squares K x one).
Proof.
  unfold exp_squares. generalize (word_bits_be x). induction l as [|b l IH]; [constructor|]. cbn [exp_squares_from]. apply Forall_app. split; [exact u_cyc_squares|].
  rewrite u_cyc. destruct (Z.eqb b 1); [rewrite u_mul|]; exact IH.
Qed.
(** The imaginary unit of Fq2 as an element of Fq12. *)
Definition q2_u : q2 K := Q2 0 1.
Definition q12_u : q12 K := Q12 (Q6 q2_u z2 z2) (q6_0 K).
Lemma u_sq : q2_mul K q2_u q2_u = q2_neg K i2. Proof. unfold q2_mul, q2_u, q2_neg, q2_1. cbn [c0 c1]. apply f_equal2; ring. Qed.
Lemma u_norm12 : norm12 K q12_u = Q6 (q2_neg K i2) z2 z2.
Proof.
  unfold norm12. rewrite !(q6_sq_mul K), (q6_nonres_mul K). unfold q12_u. cbn [e0 e1].
  assert (E : q6_mul K (Q6 q2_u z2 z2) (Q6 q2_u z2 z2) = Q6 (q2_neg K i2) z2 z2).
  { rewrite (q6_mul_coords K). cbn [d0 d1 d2]. rewrite <- u_sq. apply (q6_eq K); cbn [d0 d1 d2]; ring. }
  rewrite E. ring.
Qed.
Lemma u_norm6 : norm6 K (Q6 (q2_neg K i2) z2 z2) = q2_neg K i2.
Proof. unfold norm6. cbn [d0 d1 d2]. rewrite !(q2_sq_mul K), !(q2_nonres_mul K). ring. Qed.
Lemma u_neg : q2_neg K i2 = Q2 (- (1)) 0. Proof. unfold q2_neg, q2_1. cbn [c0 c1]. apply f_equal2; ring. Qed.
Lemma u_invert2 : q2_invert K (q2_neg K i2) = Some (q2_neg K i2).
Proof.
  rewrite u_neg. unfold q2_invert, q2_invert_full, q2_is0. cbn [c0 c1].
  assert (N : kis0 (- (1) : K) = false). { destruct (kis0 (- (1) : K)) eqn:E; [|reflexivity]. exfalso. apply (k1_neq0 K), (kneg_eq0 K), (keqb_eq K), E. }
  rewrite N. cbn [andb]. assert (E : ksq (- (1)) + ksq 0 = (1 : K)) by (unfold ksq; ring). rewrite E.
  unfold kinvert. assert (N1 : kis0 (1 : K) = false). { destruct (kis0 (1 : K)) eqn:Z; [|reflexivity]. exfalso. apply (k1_neq0 K), (keqb_eq K), Z. }
  rewrite N1. apply f_equal, f_equal2; field; exact (k1_neq0 K).
Qed.
Lemma u_inv : q12_invert K q12_u = Some (Q12 (Q6 (q2_neg K q2_u) z2 z2) (q6_0 K)).
Proof.
  unfold q12_invert. change (q6_sub K (q6_sq K (e0 q12_u)) (q6_nonres K (q6_sq K (e1 q12_u)))) with (norm12 K q12_u). rewrite u_norm12.
  unfold q6_invert. cbv zeta.
  match goal with |- context [q2_invert K ?t] => replace (q2_invert K t) with (q2_invert K (q2_neg K i2)); [|apply f_equal; symmetry; exact u_norm6] end.
  rewrite u_invert2. cbn [d0 d1 d2]. rewrite !(q2_sq_mul K), !(q2_nonres_mul K). apply f_equal. unfold q12_u. cbn [e0 e1].
  apply (q12_eq K); cbn [e0 e1]; [rewrite (q6_mul_coords K); apply (q6_eq K); cbn [d0 d1 d2]; ring|ring].
Qed.
Lemma u_start : q12_mul K (Q12 (Q6 (q2_neg K q2_u) z2 z2) (q6_0 K)) (q12_conj K q12_u) = one.
Proof.
  rewrite (q12_mul_coords K). unfold q12_conj, q12_u, q12_1. cbn [e0 e1].
  assert (E : q6_mul K (Q6 (q2_neg K q2_u) z2 z2) (Q6 q2_u z2 z2) = q6_1 K).
  { rewrite (q6_mul_coords K). cbn [d0 d1 d2]. unfold q6_1. apply (q6_eq K); cbn [d0 d1 d2]; [|ring|ring].
    transitivity (q2_neg K (q2_mul K q2_u q2_u)); [ring|]. rewrite u_sq. ring. }
  rewrite E. apply (q12_eq K); cbn [e0 e1]; ring.
Qed.
(** Its final exponentiation squares only 0, 1, -1 and itself. *)
Lemma u_squares x t0 t1 t2 t12 : Forall (fun a => a = z2 \/ a = i2 \/ a = q2_neg K i2 \/ a = q2_u) (final_exp_squares K x t0 t1 t2 t12 q12_u).
Proof.
  unfold final_exp_squares. rewrite u_inv. cbv zeta. rewrite u_start. repeat (rewrite ?u_frobs, ?u_mul, ?u_exp, ?u_conj, ?u_cyc).
  assert (W : forall l, unit_only l -> Forall (fun a => a = z2 \/ a = i2 \/ a = q2_neg K i2 \/ a = q2_u) l).
  { intros l H. eapply Forall_impl; [|exact H]. cbv beta. tauto. }
  pose proof (W _ (u_exp_squares x)) as H1. pose proof (W _ u_cyc_squares) as H2.
  apply Forall_app; split; [unfold invert_squares; apply Forall_app; split; [|apply Forall_app; split]|
    do 3 (apply Forall_app; split; [exact H1|]); do 3 (apply Forall_app; split; [exact H2|]); exact H2].
  - unfold q6_sq_squares, q12_u. cbn [e0 d0 d1 d2]. assert (E : q2_add K (q2_sub K q2_u z2) z2 = q2_u) by ring. rewrite E. repeat (apply Forall_cons; [tauto|]). apply Forall_nil.
  - unfold q6_sq_squares, q12_u, q6_0. cbn [e1 d0 d1 d2]. assert (E : q2_add K (q2_sub K z2 z2) z2 = z2) by ring. rewrite E. repeat (apply Forall_cons; [tauto|]). apply Forall_nil.
  - rewrite u_norm12. cbn [d0 d1 d2]. repeat (apply Forall_cons; [tauto|]). apply Forall_nil.
Qed.
End Units.
(** The G2 generator, over a loop of one doubling and one addition and the two last additions. *)
Definition no_loss2b (l : list (q2 F)) : bool := forallb (fun a => negb (fq2_lost a)) l.
Example C71_example_prepare : exact_prepare [1] (Aff2 F g2_generator_x g2_generator_y false).
Proof.
  assert (H : no_loss2b (prepare_squares F t61 t62 xi_to_q_minus_1_over_2 [1] (Aff2 F g2_generator_x g2_generator_y false)) = true) by (vm_compute; reflexivity).
  intros a I. unfold no_loss2b in H. rewrite forallb_forall in H. specialize (H a I). apply Bool.negb_true_iff in H. exact H.
Qed.
(** The final exponentiation of the imaginary unit of Fq2, with its inversion in Fq. *)
Lemma unit_losses : fq2_lost (q2_0 F) = false /\ fq2_lost (q2_1 F) = false /\ fq2_lost (q2_neg F (q2_1 F)) = false /\ fq2_lost (q2_u F) = false /\
  fq_lost (c0 (q2_neg F (q2_1 F))) = false /\ fq_lost (c1 (q2_neg F (q2_1 F))) = false.
Proof. repeat split; vm_compute; reflexivity. Qed.
Lemma unit_norm : fq_val (norm2 (q2_neg F (q2_1 F))) = 1.
Proof. vm_compute. reflexivity. Qed.
Example C71_example_final : exact_final (q12_u F).
Proof.
  destruct unit_losses as (A & B & C & D & E & G). unfold exact_final.
  assert (I : inverted2 F (q12_u F) = q2_neg F (q2_1 F)) by (unfold inverted2; rewrite u_norm12; apply u_norm6).
  rewrite I. split; [|split; [exact E|split; [exact G|]]].
  - intros a H. pose proof (u_squares F BN_X frob_fq2_c1 frob_fq6_c1 frob_fq6_c2 frob_fq12_c1) as S. rewrite Forall_forall in S.
    destruct (S a H) as [X | [X | [X | X]]]; rewrite X; assumption.
  - rewrite unit_norm. apply (carry_free_one fq Q_MOD). right; auto.
Qed.
