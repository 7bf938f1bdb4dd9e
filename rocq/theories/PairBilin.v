(** The BN254 pairing on G1 and the group of the G2 generator: it is defined, and it is bilinear. *)
From Coq Require Import ZArith List Bool Lia Field Ring Znumtheory.
From Verif Require Import LimbModel LimbProofs FieldModel FieldSpec FieldProofs DigitProofs PowProofs FieldMore Primes
  Algebra ExtModel ExtParams ExtProofs ExtFrob CurveSpec CurveGroup GroupLib AbTac CurveAb CurveParams CircuitFields CurveOrder
  PairingSpec PairingModel PairingProofs FinalExp PairingRefine PairingFinal LineVal TwistMap BilinAlg PairAbs PairTarget PairBn G2Cert G2Order.
Import ListNotations.
Local Open Scope Z_scope.

(** ** The additions of the loop never meet a vertical line. *)
Section Def.
Variable A : AbGrp.
Variable pi : A -> A.
Hypothesis pi_add : forall a b, pi (aadd a b) = aadd (pi a) (pi b).
Hypothesis phi : forall a, aadd (pi (pi (pi (pi a)))) a = pi (pi a).
Variable s : Z.
Variable a : A.
Hypothesis L : loop_rel A pi s a.
Lemma ppi_inj0 c : pi c = a0 -> c = a0.
Proof. intros E. pose proof (phi c) as P. rewrite E, !(ppi_0 A pi pi_add), aid in P. exact P. Qed.
Lemma ev_l : aadd (aadd (zmul s a) (pi a)) (aadd (aneg (pi (pi a))) (pi (pi (pi a)))) = a0.
Proof. unfold loop_rel in L. transitivity (aadd (aadd (aadd (zmul s a) (pi a)) (aneg (pi (pi a)))) (pi (pi (pi a)))); [ab|]. rewrite L. ab. Qed.
Lemma not_pi : zmul s a = pi a -> zmul (s * s * s - s * s + 2 * s) a = a0.
Proof.
  intros E. pose proof ev_l as H. rewrite <- E, !(ppi_zmul A pi pi_add), <- E in H. rewrite !(ppi_zmul A pi pi_add), <- E in H. rewrite <- !zmul_mul, ?Z.mul_assoc in H.
  rewrite <- H, zmul_add, zmul_sub, zmul_double. generalize (zmul (s * s * s) a) (zmul (s * s) a) (zmul s a). intros. ab.
Qed.
Lemma not_neg_pi : zmul s a = aneg (pi a) -> zmul (s * s * (s + 1)) a = a0.
Proof.
  intros E. assert (E' : pi a = zmul (- s) a) by (rewrite zmul_opp, E, aneg_neg; reflexivity).
  pose proof ev_l as H. rewrite E', !(ppi_zmul A pi pi_add), E' in H. rewrite !(ppi_zmul A pi pi_add), E' in H. rewrite <- !zmul_mul in H.
  replace (s * s * (s + 1)) with (- (- s * (- s * - s)) - - (- s * - s)) by ring. rewrite zmul_sub, !zmul_opp.
  rewrite zmul_opp in H. revert H. generalize (zmul (- s * (- s * - s)) a) (zmul (- s * - s) a) (zmul s a). intros u v z H.
  transitivity (aneg (aadd (aadd z (aneg z)) (aadd (aneg v) u))); [ab|]. rewrite H. ab.
Qed.
Lemma not_pi2 : aadd (zmul s a) (pi a) = pi (pi a) -> a = a0.
Proof.
  intros E. pose proof ev_l as H. rewrite E in H. apply ppi_inj0, ppi_inj0, ppi_inj0.
  transitivity (aadd (pi (pi a)) (aadd (aneg (pi (pi a))) (pi (pi (pi a))))); [ab|exact H].
Qed.
Lemma not_neg_pi2 : aadd (zmul s a) (pi a) = aneg (pi (pi a)) -> zmul (s + 6) a = a0.
Proof.
  intros E. pose proof ev_l as H. rewrite E in H.
  assert (P2 : pi a = zmul 2 a).
  { apply (acancel A (aneg (zmul 2 a))). rewrite (acomm _ _ (zmul 2 a)), ainv. apply ppi_inj0, ppi_inj0.
    rewrite !pi_add, !(ppi_neg A pi pi_add), !(ppi_zmul A pi pi_add). change 2 with (1 + 1). rewrite zmul_add, zmul_1. rewrite <- H. ab. }
  rewrite P2, (ppi_zmul A pi pi_add), P2, <- zmul_mul, <- zmul_add, <- zmul_opp in E.
  replace (s + 6) with (s + 2 - - (2 * 2)) by ring. rewrite zmul_sub, E. apply ainv.
Qed.
End Def.
(** ** The exponent of the pairing. *)
Local Notation F := FqFld.
Definition g1_two := proj1 (proj2 g1_ok). Definition g1_three := proj1 (proj2 (proj2 g1_ok)). Definition g1_bnz := proj2 (proj2 (proj2 g1_ok)).
Notation g1v := (cval F g1_param_b).
Definition pexp (p : g1_group) (a : g2_group) : T12 :=
  ate_exp F Fq2Fld Fq12Fld g1_param_b g2_param_b b12 g1_two g1_three g1_bnz g2_two g2_three g2_bnz ib io w ib_add ib_mul io_add io_mul io_1 w_neq0 hb2 hb1 g2_no2 qfrob qf_add qf_mul qf_1 qf_ib pix piy hx hy U6 U6_1 U6_mul U6_opp U6_0 away12 T12 chi12 ate_s chi12_mul chi12_U p a.
Lemma pexp_add_l p p' a : r1_ok a -> pexp (aadd p p') a = aadd (pexp p a) (pexp p' a).
Proof.
  intros H. exact (ate_exp_add_l F Fq2Fld Fq12Fld g1_param_b g2_param_b b12 g1_two g1_three g1_bnz g2_two g2_three g2_bnz ib io w ib_add ib_mul ib_1 io_add io_mul io_1 w_neq0 hb2 hb1 g2_no2 qfrob qf_add qf_mul qf_1 qf_ib pix piy hx hy U6 U6_1 U6_mul U6_opp U6_0 away12 T12 chi12 Q_MOD ate_s chi12_mul chi12_U chi12_frob lam12 p p' a (r1_loop_rel a H)).
Qed.
Lemma pexp_add_r p a c : r1_ok a -> r1_ok c -> pexp p (aadd a c) = aadd (pexp p a) (pexp p c).
Proof.
  intros H1 H2. exact (ate_exp_add_r F Fq2Fld Fq12Fld g1_param_b g2_param_b b12 g1_two g1_three g1_bnz g2_two g2_three g2_bnz ib io w ib_add ib_mul io_add io_mul io_1 w_neq0 hb2 hb1 g2_no2 qfrob qf_add qf_mul qf_1 qf_ib pix piy hx hy U6 U6_1 U6_mul U6_opp U6_0 away12 T12 chi12 Q_MOD ate_s chi12_mul chi12_U chi12_frob lam12 p a c
    (r1_loop_rel a H1) (r1_loop_rel c H2) (r1_loop_rel _ (r1_add a c H1 H2))).
Qed.
Lemma mul11 (x : Fq12Fld) : kmul (kmul x k1) k1 = x.
Proof. change (q12 F) in x. change (q12_mul F (q12_mul F x (q12_1 F)) (q12_1 F) = x). ring. Qed.
Lemma mul111 (x : Fq12Fld) : kmul (kmul (kmul x k1) k1) k1 = x.
Proof. change (q12 F) in x. change (q12_mul F (q12_mul F (q12_mul F x (q12_1 F)) (q12_1 F)) (q12_1 F) = x). ring. Qed.
Lemma pup_val (p : g1_group) px py : g1v p = Pt px py -> pup F Fq12Fld g1_param_b g1_two g1_three g1_bnz ib p = Pt (ib px) (ib py).
Proof. intros E. unfold pup. rewrite E. cbn [tw]. unfold tx, ty. rewrite mul11, mul111. reflexivity. Qed.
Lemma ptw_val (a : g2_group) x y : g2v a = Pt x y ->
  ptw Fq2Fld Fq12Fld g2_param_b g2_two g2_three g2_bnz io w a = Pt (fst (uq x y)) (snd (uq x y)).
Proof.
  intros E. unfold ptw. rewrite E. cbn [tw]. unfold tx, ty, uq. cbn [fst snd]. rewrite <- x_slot, <- y_slot. reflexivity.
Qed.
(** The digits. *)
Fixpoint walkb (ds : list Z) (k : Z) : bool :=
  match ds with
  | [] => true
  | d :: r =>
      (if (d =? 1) || (d =? -1) then negb ((2 * k - 1) mod R_MOD =? 0) && negb ((2 * k + 1) mod R_MOD =? 0) else d =? 0) && walkb r (2 * k + d)
  end.
Lemma order_mod (a : g2_group) k : r1_ok a -> a <> a0 -> (k mod R_MOD =? 0) = false -> zmul k a <> a0.
Proof.
  intros H N E Z. apply Z.eqb_neq in E. apply E. apply Z.mod_divide; [pose proof FinalExp.r_pos; lia|].
  exact (order_divides a k (r1_killed a H) N Z).
Qed.
Lemma walkb_ok a : r1_ok a -> a <> a0 -> forall ds k, walkb ds k = true -> walk_ok Fq2Fld g2_param_b g2_two g2_three g2_bnz a ds k.
Proof.
  intros H N. induction ds as [|d ds IH]; intros k W; [exact I|]. cbn [walkb walk_ok] in *. apply andb_true_iff in W. destruct W as [D W]. split; [|apply IH, W].
  destruct ((d =? 1) || (d =? -1)).
  - apply andb_true_iff in D. destruct D as [D1 D2]. apply negb_true_iff in D1, D2. split; intros E.
    + apply (order_mod a (2 * k - 1) H N D1). rewrite zmul_sub, zmul_1. change (aadd (zmul (2 * k) a : g2_group) (aneg a) = a0).
      etransitivity; [apply (f_equal (fun z => aadd z (aneg a)) E)|]. apply ainv.
    + apply (order_mod a (2 * k + 1) H N D2). rewrite zmul_add, zmul_1. 
      etransitivity; [apply (f_equal (fun z => aadd z a) E)|]. change (aadd (aneg a) a = (a0 : g2_group)). rewrite acomm. apply ainv.
  - apply Z.eqb_eq, D.
Qed.
Lemma ate_walk : walkb ate_digits 1 = true. Proof. vm_cast_no_check (eq_refl true). Qed.
Lemma ate_sum : signed_value (1 :: ate_digits) = ate_s. Proof. vm_compute. reflexivity. Qed.
Lemma num0 : (ate_s mod R_MOD =? 0) = false. Proof. vm_cast_no_check (eq_refl false). Qed.
Lemma num1 : ((ate_s * ate_s * ate_s - ate_s * ate_s + 2 * ate_s) mod R_MOD =? 0) = false. Proof. vm_cast_no_check (eq_refl false). Qed.
Lemma num2 : ((ate_s * ate_s * (ate_s + 1)) mod R_MOD =? 0) = false. Proof. vm_cast_no_check (eq_refl false). Qed.
Lemma num3 : ((ate_s + 6) mod R_MOD =? 0) = false. Proof. vm_cast_no_check (eq_refl false). Qed.
Theorem pexp_run (p : g1_group) px py (a : g2_group) x y : g1v p = Pt px py -> g2v a = Pt x y -> r1_ok a ->
  ate_pairing (Aff1 F px py false) (Aff2 F x y false) = Some (tval (pexp p a)).
Proof.
  intros EP EA H. pose proof (r1_loop_rel a H) as L.
  assert (N : a <> a0) by (intros E; rewrite E in EA; discriminate EA).
  destruct (ate_run F Fq2Fld Fq12Fld g1_param_b g2_param_b b12 g1_two g1_three g1_bnz g2_two g2_three g2_bnz ib io w ib_add ib_mul io_add io_mul io_1 w_neq0 hb2 hb1 g2_no2 qfrob qf_add qf_mul qf_1 qf_ib pix piy hx hy U6 U6_1 U6_mul U6_opp U6_0 away12 T12 chi12 ate_s chi12_mul chi12_U p (ib px) (ib py) a (fst (uq x y)) (snd (uq x y)) ate_digits
    (pup_val p px py EP) (ptw_val a x y EA) (walkb_ok a H N ate_digits 1 ate_walk) ate_sum
    (order_mod a _ H N num0)
    (fun E => order_mod a _ H N num1 (not_pi g2_group g2_pi g2_pi_add ate_s a L E))
    (fun E => order_mod a _ H N num2 (not_neg_pi g2_group g2_pi g2_pi_add ate_s a L E))
    (fun E => N (not_pi2 g2_group g2_pi g2_pi_add g2_phi ate_s a L E))
    (fun E => order_mod a _ H N num3 (not_neg_pi2 g2_group g2_pi g2_pi_add g2_phi ate_s a L E))) as (f & EF & F0 & CF).
  rewrite ate_pairing_eq. rewrite (pairing_textbook ate_digits px py x y f).
  - apply (f_equal Some). rewrite <- (chi12_val f F0). apply (f_equal tval). exact CF.
  - apply (g1_y_neq0 px py). pose proof (cval_on F g1_param_b p) as O. rewrite EP in O. exact O.
  - exact EF.
Qed.
