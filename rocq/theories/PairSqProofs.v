(** When no squared element is one that [square] gets wrong, the functions of PairSqModel.v are those of ExtModel.v and
    PairingModel.v. *)
From Coq Require Import ZArith List Bool Field Lia.
From Verif Require Import LimbModel LimbProofs FieldModel FieldSpec FieldProofs PowProofs Algebra ExtModel ExtParams ExtFrob PairingModel PairSqModel.
Import ListNotations.
Local Open Scope Z_scope.

Section Exact.
Variable F : Fld.
Variable sq1 : F -> F.
Variable inv1 : F -> option F.
Add Field psF : (kth F).
Local Notation mul := (q2_mul F).
Local Notation ssq := (s_sq F sq1).
Definition exact2 (l : list (q2 F)) : Prop := Forall (fun a => ssq a = mul a a) l.
Lemma sqm a : q2_sq F a = mul a a.
Proof. destruct a as [x y]. unfold q2_sq, q2_mul, ksq, kdbl. cbn [c0 c1]. f_equal; ring. Qed.
Lemma exact2_app l1 l2 : exact2 (l1 ++ l2) -> exact2 l1 /\ exact2 l2.
Proof. apply Forall_app. Qed.
Ltac inv_all H := repeat (let A := fresh "E" in pose proof (Forall_inv H) as A; apply Forall_inv_tail in H; cbv beta in A).

Lemma ex_double_eval t : exact2 (double_eval_squares F t) -> s_double_eval F sq1 t = double_eval F t.
Proof.
  unfold double_eval_squares. cbv zeta. intros H. inv_all H. clear H. unfold s_double_eval, double_eval. cbv zeta. rewrite !sqm.
  rewrite E, E0. rewrite E1, E2, E3, E4, E5, E6. reflexivity.
Qed.
Lemma ex_add_eval t rx ry : exact2 (add_eval_squares F t rx ry) -> s_add_eval F sq1 t rx ry = add_eval F t rx ry.
Proof.
  unfold add_eval_squares, add_eval. cbv zeta. cbn [fst jz]. rewrite !sqm. intros H. inv_all H. clear H. unfold s_add_eval. cbv zeta.
  rewrite E, E0, E1, E2, E3, E4, E5, E6. reflexivity.
Qed.
Lemma ex_loop ds gx gy : forall t, exact2 (loop_squares F ds gx gy t) ->
  s_prepare_loop F sq1 ds gx gy t = prepare_loop F ds gx gy t /\ fst (prepare_loop F ds gx gy t) = fold_left (fun t d => step_point F d gx gy t) ds t.
Proof.
  induction ds as [|d ds IH]; intros t H; [split; reflexivity|]. cbn [loop_squares] in H. apply exact2_app in H as [H H2].
  unfold step_squares2 in H. apply exact2_app in H as [H0 H1]. destruct (IH _ H2) as [I1 I2].
  cbn [s_prepare_loop prepare_loop fold_left]. rewrite (ex_double_eval t H0). unfold step_point in I1, I2 |- *. cbv zeta in I1, I2. cbv zeta.
  destruct (double_eval F t) as [t1 c]. cbn [fst] in *.
  destruct (d =? 1); [|destruct (d =? -1)].
  - rewrite (ex_add_eval _ _ _ H1). destruct (add_eval F t1 gx gy) as [t2 c']. cbn [fst] in *. rewrite I1. destruct (prepare_loop F ds gx gy t2). split; [reflexivity|exact I2].
  - rewrite (ex_add_eval _ _ _ H1). destruct (add_eval F t1 gx (q2_neg F gy)) as [t2 c']. cbn [fst] in *. rewrite I1. destruct (prepare_loop F ds gx gy t2). split; [reflexivity|exact I2].
  - rewrite I1. destruct (prepare_loop F ds gx gy t1). split; [reflexivity|exact I2].
Qed.
Section Prep.
Variables (c61 c62 xi_half : q2 F) (digits : list Z).
Lemma ex_prepare g : exact2 (prepare_squares F c61 c62 xi_half digits g) -> s_prepare F sq1 c61 c62 xi_half digits g = prepare F c61 c62 xi_half digits g.
Proof.
  unfold prepare_squares, s_prepare, prepare. destruct (a2inf F g); [reflexivity|]. cbv zeta. intros H.
  apply exact2_app in H as [H0 H]. apply exact2_app in H as [H1 H2]. destruct (ex_loop _ _ _ _ H0) as [I1 I2]. rewrite <- I2 in H1, H2. rewrite I1.
  destruct (prepare_loop F digits (a2x F g) (a2y F g) (Jac F (a2x F g) (a2y F g) (q2_1 F))) as [t cs]. cbn [fst] in *.
  change (Q2 (c0 (a2x F g)) (- c1 (a2x F g))%fld) with (q2_conj F (a2x F g)). change (Q2 (c0 (a2y F g)) (- c1 (a2y F g))%fld) with (q2_conj F (a2y F g)).
  rewrite (ex_add_eval _ _ _ H1). destruct (add_eval F t (mul (q2_conj F (a2x F g)) c61) (mul (q2_conj F (a2y F g)) xi_half)) as [t1 k1]. cbn [fst] in *.
  rewrite (ex_add_eval _ _ _ H2). destruct (add_eval F t1 (mul (a2x F g) c62) (a2y F g)). reflexivity.
Qed.
End Prep.

Lemma ex_fp4 a b : exact2 (fp4_squares F a b) -> s_fp4_square F sq1 a b = fp4_square F a b.
Proof. intros H. inv_all H. unfold s_fp4_square, fp4_square. cbv zeta. rewrite !sqm, E, E0, E1. reflexivity. Qed.
Lemma ex_cyclotomic f : exact2 (cyclotomic_squares F f) -> s_cyclotomic_square F sq1 f = cyclotomic_square F f.
Proof.
  unfold cyclotomic_squares. intros H. apply exact2_app in H as [H0 H]. apply exact2_app in H as [H1 H2].
  unfold s_cyclotomic_square, cyclotomic_square. cbv zeta. rewrite (ex_fp4 _ _ H0), (ex_fp4 _ _ H1), (ex_fp4 _ _ H2). reflexivity.
Qed.
Lemma ex_exp_from bits f : forall res, exact2 (exp_squares_from F bits f res) ->
  fold_left (fun res bit => let res := s_cyclotomic_square F sq1 res in if Z.eqb bit 1 then q12_mul F res f else res) bits res =
  fold_left (fun res bit => let res := cyclotomic_square F res in if Z.eqb bit 1 then q12_mul F res f else res) bits res.
Proof.
  induction bits as [|b bits IH]; intros res H; [reflexivity|]. cbn [exp_squares_from fold_left] in *. cbv zeta. apply exact2_app in H as [H0 H].
  rewrite (ex_cyclotomic res H0). apply IH, H.
Qed.
Lemma ex_exp x f : exact2 (exp_squares F x f) -> s_cyclotomic_exp F sq1 x f = cyclotomic_exp F x f.
Proof. apply ex_exp_from. Qed.
Lemma ex_q6_sq a : exact2 (q6_sq_squares F a) -> s_q6_sq F sq1 a = q6_sq F a.
Proof. intros H. inv_all H. unfold s_q6_sq, q6_sq. cbv zeta. rewrite !sqm, E, E0, E1. reflexivity. Qed.
(** The inversion in Fq of the norm of the Fq2 element [a], with its two squares. *)
Definition exact_invert (a : q2 F) : Prop :=
  sq1 (c0 a) = kmul (c0 a) (c0 a) /\ sq1 (c1 a) = kmul (c1 a) (c1 a) /\
  inv1 (kadd (kmul (c0 a) (c0 a)) (kmul (c1 a) (c1 a))) = kinvert (kadd (kmul (c0 a) (c0 a)) (kmul (c1 a) (c1 a))).
Lemma ex_q2_invert a : exact_invert a -> s_q2_invert F sq1 inv1 a = q2_invert F a.
Proof. intros (H0 & H1 & H). unfold s_q2_invert, q2_invert, s_q2_invert_full, q2_invert_full. rewrite H0, H1, H. reflexivity. Qed.
Lemma ex_invert a : exact2 (invert_squares F a) -> exact_invert (inverted2 F a) -> s_q12_invert F sq1 inv1 a = q12_invert F a.
Proof.
  unfold invert_squares, inverted2. intros H I. apply exact2_app in H as [H0 H]. apply exact2_app in H as [H1 H].
  unfold s_q12_invert, q12_invert. rewrite (ex_q6_sq _ H0), (ex_q6_sq _ H1). fold (norm12 F a). inv_all H. clear H H0 H1. revert I E E0 E1. generalize (norm12 F a). intros n I E E0 E1.
  assert (X : s_q6_invert F sq1 inv1 n = q6_invert F n); [|rewrite X; reflexivity].
  unfold s_q6_invert, q6_invert, norm6 in *. cbv zeta in *. rewrite <- !sqm in *. rewrite E, E0, E1. rewrite (ex_q2_invert _ I). reflexivity.
Qed.
Lemma ex_final_exp x t0 t1 t2 t12 f : exact2 (final_exp_squares F x t0 t1 t2 t12 f) -> exact_invert (inverted2 F f) ->
  s_final_exp F sq1 inv1 x t0 t1 t2 t12 f = final_exp F x t0 t1 t2 t12 f.
Proof.
  intros H I. assert (H0 : exact2 (invert_squares F f)).
  { unfold final_exp_squares in H. cbv zeta in H. destruct (q12_invert F f); [apply exact2_app in H as [H _]; exact H|exact H]. }
  unfold s_final_exp, final_exp. rewrite (ex_invert f H0 I). unfold final_exp_squares in H. cbv zeta in *. destruct (q12_invert F f) as [f2|]; [|reflexivity].
  revert H. generalize (q12_mul F (q12_frobs F t0 t1 t2 t12 (q12_mul F f2 (q12_conj F f)) 2) (q12_mul F f2 (q12_conj F f))). intros r H.
  apply exact2_app in H as [_ H]. apply exact2_app in H as [H1 H]. apply exact2_app in H as [H2 H]. apply exact2_app in H as [H3 H].
  apply exact2_app in H as [H4 H]. apply exact2_app in H as [H5 H]. apply exact2_app in H as [H6 H7].
  rewrite (ex_exp x r H1). revert H2 H3 H4 H5 H6 H7. generalize (cyclotomic_exp F x r). intros fu H2 H3 H4 H5 H6 H7.
  rewrite (ex_exp x fu H2). revert H3 H4 H5 H6 H7. generalize (cyclotomic_exp F x fu). intros fu2 H3 H4 H5 H6 H7.
  rewrite (ex_exp x fu2 H3). revert H4 H5 H6 H7. generalize (cyclotomic_exp F x fu2). intros fu3 H4 H5 H6 H7.
  rewrite (ex_cyclotomic _ H4), (ex_cyclotomic _ H5), (ex_cyclotomic _ H6), (ex_cyclotomic _ H7). reflexivity.
Qed.
End Exact.
