(** The textbook optimal Ate loop on a curve and its sextic twist, over abstract fields: its value, up to
    the factors a character [chi] ignores, is bilinear. *)
From Coq Require Import ZArith List Bool Field Lia.
From Verif Require Import Algebra CurveSpec CurveGroup GroupLib AbTac CurveAb LineAlg LineVal TwistMap BilinAlg PairingSpec.
Import ListNotations.
Local Open Scope fld_scope.

Section PairAbs.
Variables F1 E2 K : Fld.
Add Field paF : (kth F1). Add Field paE : (kth E2). Add Field paK : (kth K).
(** Curves over [F1] and [E2], and their images over [K]. *)
Variables (b1 : F1) (b2 : E2) (b' : K).
Hypothesis two1 : (1 + 1 : F1) <> 0. Hypothesis three1 : (1 + 1 + 1 : F1) <> 0. Hypothesis bnz1 : b1 <> 0.
Hypothesis two2 : (1 + 1 : E2) <> 0. Hypothesis three2 : (1 + 1 + 1 : E2) <> 0. Hypothesis bnz2 : b2 <> 0.
Variables (ib : F1 -> K) (io : E2 -> K) (w : K).
Hypothesis ib_add : forall a c, ib (a + c) = ib a + ib c. Hypothesis ib_mul : forall a c, ib (a * c) = ib a * ib c. Hypothesis ib_1 : ib 1 = 1.
Hypothesis io_add : forall a c, io (a + c) = io a + io c. Hypothesis io_mul : forall a c, io (a * c) = io a * io c. Hypothesis io_1 : io 1 = 1.
Hypothesis W0 : w <> 0.
Hypothesis Hb2 : b' = io b2 * (w * w * w * w * w * w).
Hypothesis Hb1 : b' = ib b1 * (1 * 1 * 1 * 1 * 1 * 1).
Hypothesis no2 : forall x : E2, x * x * x + b2 <> 0.
(** Frobenius. *)
Variable frob : K -> K.
Hypothesis fr_add : forall a c, frob (a + c) = frob a + frob c. Hypothesis fr_mul : forall a c, frob (a * c) = frob a * frob c. Hypothesis fr_1 : frob 1 = 1.
Hypothesis fr_ib : forall a, frob (ib a) = ib a.
Variables pix piy : E2 -> E2.
Hypothesis fr_x : forall x, frob (io x * w * w) = io (pix x) * w * w.
Hypothesis fr_y : forall y, frob (io y * w * w * w) = io (piy y) * w * w * w.
(** Negligible factors and the character. *)
Variable U : K -> Prop.
Hypothesis U1 : U 1. Hypothesis Umul : forall a c, U a -> U c -> U (a * c). Hypothesis Uopp : forall a, U a -> U (- a). Hypothesis U0 : forall a, U a -> a <> 0.
Hypothesis away : forall px py x, on_curve b1 (Pt px py) -> U (ib px - io x * w * w).
Variables (T : AbGrp) (chi : K -> T) (q s : Z).
Hypothesis chi_mul : forall a c, a <> 0 -> c <> 0 -> chi (a * c) = aadd (chi a) (chi c).
Hypothesis chi_U : forall u, U u -> chi u = a0.
Hypothesis chi_frob : forall a, a <> 0 -> chi (frob a) = zmul q (chi a).
Hypothesis lam : forall t : T, zmul (s + q - q * q + q * q * q)%Z t = a0.

Notation two := (h_two E2 K io io_add io_mul io_1 two2).
Notation three := (h_three E2 K io io_add io_mul io_1 three2).
Notation bnz := (h_bnz E2 K io w b2 b' io_mul io_1 W0 Hb2 bnz2).
Notation G2 := (cgrp E2 b2 two2 three2 bnz2).
Notation G1 := (cgrp F1 b1 two1 three1 bnz1).
Notation tw := (tw E2 K io w).
Notation up := (TwistMap.tw F1 K ib 1).
Notation on := (on_curve b').
Notation sim := (sim K U).
Definition ptw (a : G2) : point K := tw (cval E2 b2 a).
Definition pup (p : G1) : point K := up (cval F1 b1 p).
Lemma ptw_on a : on (ptw a). Proof. apply (tw_on E2 K io w b2 b' io_add io_mul Hb2), cval_on. Qed.
Lemma pup_on p : on (pup p). Proof. apply (tw_on F1 K ib 1 b1 b' ib_add ib_mul Hb1), cval_on. Qed.
Lemma ptw_add a c : ptw (aadd a c) = pt_add (ptw a) (ptw c).
Proof. unfold ptw. rewrite cval_add. apply (tw_add E2 K io w b2 b' io_add io_mul io_1 W0 Hb2 two2 three2 bnz2); apply cval_on. Qed.
Lemma pup_add p p' : pup (aadd p p') = pt_add (pup p) (pup p').
Proof. unfold pup. rewrite cval_add. apply (tw_add F1 K ib 1 b1 b' ib_add ib_mul ib_1 (k1_neq0 K) Hb1 two1 three1 bnz1); apply cval_on. Qed.
Lemma ptw_neg a : ptw (aneg a) = pt_neg (ptw a). Proof. unfold ptw. rewrite cval_neg. apply (tw_neg E2 K io w io_add). Qed.
Lemma pup_neg p : pup (aneg p) = pt_neg (pup p). Proof. unfold pup. rewrite cval_neg. apply (tw_neg F1 K ib 1 ib_add). Qed.
Lemma ptw_inj a c : ptw a = ptw c -> a = c.
Proof. intros H. apply cpt_eq. apply (tw_inj E2 K io w io_add io_mul io_1 W0). exact H. Qed.
Lemma ptw_0 : ptw a0 = Inf. Proof. reflexivity. Qed.
Lemma pup_0 : pup a0 = Inf. Proof. reflexivity. Qed.
(** The two groups over [K]. *)
Definition HH (P : point K) : Prop := exists a, P = ptw a.
Definition GG (P : point K) : Prop := exists p, P = pup p.
Lemma HH_on P : HH P -> on P. Proof. intros [a ->]. apply ptw_on. Qed.
Lemma GG_on P : GG P -> on P. Proof. intros [a ->]. apply pup_on. Qed.
Lemma HH_add P Q : HH P -> HH Q -> HH (pt_add P Q). Proof. intros [a ->] [c ->]. exists (aadd a c). symmetry. apply ptw_add. Qed.
Lemma GG_add P Q : GG P -> GG Q -> GG (pt_add P Q). Proof. intros [a ->] [c ->]. exists (aadd a c). symmetry. apply pup_add. Qed.
Lemma HH_neg P : HH P -> HH (pt_neg P). Proof. intros [a ->]. exists (aneg a). symmetry. apply ptw_neg. Qed.
Lemma GG_neg P : GG P -> GG (pt_neg P). Proof. intros [a ->]. exists (aneg a). symmetry. apply pup_neg. Qed.
Lemma HH_pt x y : HH (Pt x y) -> exists u v, on_curve b2 (Pt u v) /\ x = io u * w * w /\ y = io v * w * w * w.
Proof.
  intros [a E]. unfold ptw in E. pose proof (cval_on E2 b2 a) as O. destruct (cval E2 b2 a) as [|u v]; [discriminate E|].
  cbn [TwistMap.tw] in E. injection E as -> ->. exists u, v. split; [exact O|]. split; reflexivity.
Qed.
Lemma GG_pt x y : GG (Pt x y) -> exists u v, on_curve b1 (Pt u v) /\ x = ib u /\ y = ib v.
Proof.
  intros [a E]. unfold pup in E. pose proof (cval_on F1 b1 a) as O. destruct (cval F1 b1 a) as [|u v]; [discriminate E|].
  cbn [TwistMap.tw] in E. injection E as -> ->. exists u, v. split; [exact O|]. unfold tx, ty. split; ring.
Qed.
Lemma HH_two x y : HH (Pt x y) -> y <> 0.
Proof.
  intros H E. destruct (HH_pt _ _ H) as (u & v & O & _ & EY). rewrite EY in E.
  assert (V : v <> 0). { intros ->. cbn in O. apply (no2 u). rewrite <- O. ring. }
  revert E. apply kmul_neq0; [|exact W0]. apply kmul_neq0; [|exact W0]. apply kmul_neq0; [|exact W0].
  apply (h_neq0 E2 K io io_mul io_1), V.
Qed.
Lemma HG_away x y x1 y1 : GG (Pt x y) -> HH (Pt x1 y1) -> U (x - x1).
Proof.
  intros G H. destruct (GG_pt _ _ G) as (u & v & O & -> & _). destruct (HH_pt _ _ H) as (u' & v' & _ & -> & _). eapply away, O.
Qed.
Lemma chi_sim a c : sim a c -> chi a = chi c.
Proof.
  intros (u & v & Hu & Hv & E). destruct (kdec K a 0) as [->|A].
  - destruct (kdec K c 0) as [->|C]; [reflexivity|]. exfalso. apply (kmul_neq0 K v c (U0 _ Hv) C). rewrite <- E. ring.
  - destruct (kdec K c 0) as [->|C]; [exfalso; apply (kmul_neq0 K u a (U0 _ Hu) A); rewrite E; ring|].
    apply (f_equal chi) in E. rewrite !chi_mul, (chi_U u Hu), (chi_U v Hv), !aid in E by auto. exact E.
Qed.
Lemma sim_neq0 a c : sim (a * c) 1 -> a <> 0.
Proof. intros (u & v & Hu & Hv & E) ->. apply (U0 _ Hv). transitivity (v * 1); [ring|]. rewrite <- E. ring. Qed.
Lemma line_HG_neq0 a c p : lval (ptw a) (ptw c) (pup p) <> 0.
Proof.
  destruct (pup p) as [|x y] eqn:EP; [rewrite lval_inf; apply k1_neq0|].
  assert (GP : GG (Pt x y)) by (exists p; symmetry; exact EP).
  eapply sim_neq0. apply (neg_sim K b' two three bnz U U1 Umul Uopp HH HH_on HH_add HH_neg x y (GG_on _ GP)).
  - intros x1 y1 H1. exact (HG_away _ _ _ _ GP H1).
  - exists a. reflexivity.
  - exists c. reflexivity.
Qed.
Lemma line_GH_neq0 p p' a : lval (pup p) (pup p') (ptw a) <> 0.
Proof.
  destruct (ptw a) as [|x y] eqn:EP; [rewrite lval_inf; apply k1_neq0|].
  assert (HP : HH (Pt x y)) by (exists a; symmetry; exact EP).
  eapply sim_neq0. apply (neg_sim K b' two three bnz U U1 Umul Uopp GG GG_on GG_add GG_neg x y (HH_on _ HP)).
  - intros x1 y1 H1. replace (x - x1) with (- (x1 - x)) by ring. apply Uopp. exact (HG_away _ _ _ _ H1 HP).
  - exists p. reflexivity.
  - exists p'. reflexivity.
Qed.

(** The cocycle, the reciprocity factor and Frobenius. *)
Definition cc (p : G1) (a c : G2) : T := chi (lval (ptw a) (ptw c) (pup p)).
Definition hh (p p' : G1) (a : G2) : T := chi (lval (pup p) (pup p') (ptw a)).
Lemma chi_1 : chi 1 = a0. Proof. apply chi_U, U1. Qed.
Lemma cc_ok p : cocycle_on G2 T (cc p).
Proof.
  constructor; unfold cc; intros.
  - rewrite ptw_0, lval_inf_l. apply chi_1.
  - rewrite ptw_neg, lval_opp. apply chi_1.
  - f_equal. apply (lval_comm K b' two three bnz); apply ptw_on.
  - rewrite <- !chi_mul by apply line_HG_neq0. apply chi_sim. rewrite !ptw_add.
    destruct (pup p) as [|x y] eqn:EP; [rewrite !lval_inf; apply sim_refl, U1|].
    assert (GP : GG (Pt x y)) by (exists p; symmetry; exact EP).
    apply (cocycle K b' two three bnz U U1 Umul Uopp HH HH_on HH_add HH_neg HH_two x y (GG_on _ GP)).
    + intros x1 y1 H1. exact (HG_away _ _ _ _ GP H1).
    + exists a; reflexivity.
    + exists b; reflexivity.
    + exists d; reflexivity.
Qed.
Lemma cc_recip p p' a c : aadd (aadd (cc p a c) (cc p' a c)) (hh p p' (aadd a c)) = aadd (cc (aadd p p') a c) (aadd (hh p p' a) (hh p p' c)).
Proof.
  unfold cc, hh. rewrite <- (chi_mul (lval (ptw a) (ptw c) (pup p))) by apply line_HG_neq0.
  rewrite <- chi_mul by (try apply kmul_neq0; first [apply line_HG_neq0|apply line_GH_neq0]).
  rewrite <- (chi_mul (lval (pup p) (pup p') (ptw a))) by apply line_GH_neq0.
  rewrite <- chi_mul by (try apply kmul_neq0; first [apply line_HG_neq0|apply line_GH_neq0]).
  apply chi_sim. rewrite ptw_add, pup_add.
  eapply (sim_trans K U Umul).
  - apply (reciprocity K b' two three bnz U U1 Umul Uopp HH HH_on HH_add GG GG_on GG_add HG_away); eexists; reflexivity.
  - apply sim_eq; [exact U1|ring].
Qed.
Lemma hh_0 p p' : hh p p' a0 = a0. Proof. unfold hh. rewrite ptw_0, lval_inf. apply chi_1. Qed.
Lemma cc_neg p a c : cc p (aneg a) (aneg c) = aneg (cc p a c).
Proof.
  apply aneg_unique. unfold cc. rewrite <- chi_mul by apply line_HG_neq0. rewrite <- chi_1. apply chi_sim. rewrite !ptw_neg.
  destruct (pup p) as [|x y] eqn:EP; [rewrite !lval_inf; apply sim_eq; [exact U1|ring]|].
  assert (GP : GG (Pt x y)) by (exists p; symmetry; exact EP).
  apply (neg_sim K b' two three bnz U U1 Umul Uopp HH HH_on HH_add HH_neg x y (GG_on _ GP)).
  - intros x1 y1 H1. exact (HG_away _ _ _ _ GP H1).
  - exists a; reflexivity.
  - exists c; reflexivity.
Qed.
Notation fp := (TwistMap.tw K K frob 1).
Lemma fp_pup p : fp (pup p) = pup p.
Proof.
  unfold pup. destruct (cval F1 b1 p) as [|x y]; [reflexivity|]. cbn [TwistMap.tw]. unfold tx, ty.
  rewrite !fr_mul, !fr_ib, fr_1. f_equal; ring.
Qed.
Definition pimap (P : point E2) : point E2 := match P with Inf => Inf | Pt x y => Pt (pix x) (piy y) end.
Lemma fp_tw P : fp (tw P) = tw (pimap P).
Proof.
  destruct P as [|x y]; [reflexivity|]. cbn [TwistMap.tw pimap]. unfold tx, ty. rewrite fr_x, fr_y. f_equal; ring.
Qed.
Lemma fr_b' : b' = frob b' * (1 * 1 * 1 * 1 * 1 * 1).
Proof. rewrite Hb1, !fr_mul, fr_ib, fr_1. ring. Qed.
Lemma tw_on_inv P : on (tw P) -> on_curve b2 P.
Proof.
  destruct P as [|x y]; [auto|]. cbn. unfold tx, ty. intros H. apply (h_inj E2 K io io_add io_mul io_1).
  rewrite Hb2 in H. rewrite io_mul, io_add, !io_mul. apply (kmul_cancel_l K (w * w * w * w * w * w)); [apply w6, W0|].
  match type of H with ?a = ?c => transitivity a; [ring|transitivity c; [exact H|ring]] end.
Qed.
Lemma pimap_on P : on_curve b2 P -> on_curve b2 (pimap P).
Proof.
  intros H. apply tw_on_inv. rewrite <- fp_tw. apply (tw_on K K frob 1 b' b' fr_add fr_mul fr_b').
  apply (tw_on E2 K io w b2 b' io_add io_mul Hb2), H.
Qed.
Definition pi (a : G2) : G2 := cmk E2 b2 (pimap (cval E2 b2 a)) (pimap_on _ (cval_on E2 b2 a)).
Lemma ptw_pi a : ptw (pi a) = fp (ptw a). Proof. unfold ptw, pi. cbn [cval proj1_sig cmk]. symmetry. apply fp_tw. Qed.
Lemma pi_add a c : pi (aadd a c) = aadd (pi a) (pi c).
Proof.
  apply ptw_inj. rewrite ptw_pi, !ptw_add, !ptw_pi.
  apply (tw_add K K frob 1 b' b' fr_add fr_mul fr_1 (k1_neq0 K) fr_b' two three bnz); apply ptw_on.
Qed.
Lemma cc_pi p a c : cc p (pi a) (pi c) = zmul q (cc p a c).
Proof.
  unfold cc. rewrite !ptw_pi, <- (fp_pup p) at 1.
  rewrite (tw_lval K K frob 1 b' b' fr_add fr_mul fr_1 (k1_neq0 K) fr_b' two three bnz _ _ _ eq_refl (ptw_on a) (ptw_on c)).
  apply chi_frob, line_HG_neq0.
Qed.
Lemma hh_pi p p' a : hh p p' (pi a) = zmul q (hh p p' a).
Proof.
  unfold hh. rewrite ptw_pi, <- (fp_pup p), <- (fp_pup p') at 1.
  rewrite (tw_lval K K frob 1 b' b' fr_add fr_mul fr_1 (k1_neq0 K) fr_b' two three bnz _ _ _ eq_refl (pup_on p) (pup_on p')).
  apply chi_frob, line_GH_neq0.
Qed.

(** The exponent of the loop. *)
Definition ate_exp (p : G1) (a : G2) : T := ate (cc_ok p) pi s a.
Notation rel := (loop_rel G2 pi s).
Theorem ate_exp_add_r p a c : rel a -> rel c -> rel (aadd a c) -> ate_exp p (aadd a c) = aadd (ate_exp p a) (ate_exp p c).
Proof. apply (ate_add_r G2 G1 T cc cc_ok pi pi_add q s cc_pi cc_neg lam). Qed.
Theorem ate_exp_add_l p p' a : rel a -> ate_exp (aadd p p') a = aadd (ate_exp p a) (ate_exp p' a).
Proof. apply (ate_add_l G2 G1 T cc cc_ok hh cc_recip hh_0 pi q s hh_pi lam). Qed.
(** The textbook steps compute these line values. *)
Lemma dbl_step_ok (px py x y f : K) : y + y <> 0 -> exists x' y' : K,
  dbl_step K (px, py) (f, (x, y)) = Some (f * f * lval (Pt x y) (Pt x y) (Pt px py), (x', y')) /\ pt_add (Pt x y) (Pt x y) = Pt x' y'.
Proof.
  intros N. assert (E : keqb y (- y) = false).
  { destruct (keqb_spec K y (- y)) as [E|]; [|reflexivity]. exfalso. apply N. rewrite E at 2. ring. }
  assert (E0 : keqb (y + y) k0 = false) by (destruct (keqb_spec K (y + y) 0); [tauto|reflexivity]).
  unfold dbl_step, tangent, lval, lslope, pt_add, third, line_at. cbn [fst snd]. rewrite keqb_refl, E, E0. cbn [andb].
  eexists _, _. split; reflexivity.
Qed.
Lemma add_step_ok (px py x1 y1 x2 y2 f : K) : x1 <> x2 -> exists x' y' : K,
  add_step K (px, py) (x2, y2) (f, (x1, y1)) = Some (f * lval (Pt x1 y1) (Pt x2 y2) (Pt px py), (x', y')) /\ pt_add (Pt x1 y1) (Pt x2 y2) = Pt x' y'.
Proof.
  intros N. assert (E : keqb x1 x2 = false) by (destruct (keqb_spec K x1 x2); [tauto|reflexivity]).
  assert (N' : x2 - x1 <> 0) by (intros E'; apply N; symmetry; apply ksub_eq0, E').
  assert (N'' : x1 - x2 <> 0) by (intros E'; apply N; apply ksub_eq0, E').
  assert (E0 : keqb (x2 - x1) k0 = false) by (destruct (keqb_spec K (x2 - x1) 0); [tauto|reflexivity]).
  assert (ES : (y2 - y1) / (x2 - x1) = (y1 - y2) / (x1 - x2)) by (field; tauto).
  unfold add_step, chord, lval, lslope, pt_add, third, line_at. cbn [fst snd]. rewrite E, E0, ES. cbn [andb].
  eexists _, _. split; reflexivity.
Qed.
Lemma same_x (x y1 y2 : K) : on (Pt x y1) -> on (Pt x y2) -> y1 = y2 \/ y1 = - y2.
Proof.
  cbn. intros A C. assert (E : (y1 - y2) * (y1 + y2) = 0) by (transitivity (y1 * y1 - y2 * y2); [ring|]; rewrite A, C; ring).
  apply kmul_eq0 in E. destruct E as [E|E]; [left; apply ksub_eq0, E|right]. apply ksub_eq0. rewrite <- E. ring.
Qed.
Lemma ptw_aff a : a <> a0 -> exists x y, ptw a = Pt x y.
Proof.
  intros N. destruct (ptw a) as [|x y] eqn:E; [|eauto]. exfalso. apply N, ptw_inj. rewrite E. reflexivity.
Qed.
Lemma run_dbl p px py a x y f : pup p = Pt px py -> ptw a = Pt x y -> exists x' y',
  dbl_step K (px, py) (f, (x, y)) = Some (f * f * lval (ptw a) (ptw a) (pup p), (x', y')) /\ ptw (aadd a a) = Pt x' y'.
Proof.
  intros EP EA. rewrite ptw_add, EP, EA. apply dbl_step_ok. intros E. apply (dbl0 K two) in E. revert E.
  apply (HH_two x y). exists a. symmetry. exact EA.
Qed.
Lemma run_add p px py a c x y x2 y2 f : pup p = Pt px py -> ptw a = Pt x y -> ptw c = Pt x2 y2 -> a <> c -> a <> aneg c -> exists x' y',
  add_step K (px, py) (x2, y2) (f, (x, y)) = Some (f * lval (ptw a) (ptw c) (pup p), (x', y')) /\ ptw (aadd a c) = Pt x' y'.
Proof.
  intros EP EA EC N1 N2. rewrite ptw_add, EP, EA, EC. apply add_step_ok. intros ->.
  pose proof (ptw_on a) as OA. pose proof (ptw_on c) as OC. rewrite EA in OA. rewrite EC in OC.
  destruct (same_x _ _ _ OA OC) as [->| ->].
  - apply N1, ptw_inj. rewrite EA, EC. reflexivity.
  - apply N2, ptw_inj. rewrite ptw_neg, EA, EC. reflexivity.
Qed.
(** Digits whose walk from [k] never meets a vertical line. *)
Fixpoint walk_ok (a : G2) (ds : list Z) (k : Z) : Prop :=
  match ds with
  | [] => True
  | d :: r =>
      (if Z.eqb d 1 || Z.eqb d (-1) then zmul (2 * k) a <> a /\ zmul (2 * k) a <> aneg a else d = 0%Z) /\ walk_ok a r (2 * k + d)
  end.
Lemma miller_run p px py a xa ya ds : pup p = Pt px py -> ptw a = Pt xa ya -> forall k f x y, walk_ok a ds k ->
  ptw (zmul k a) = Pt x y -> f <> 0 -> chi f = mil (cc_ok p) k a -> exists f' x' y' k',
  k' = fold_left (fun acc d => 2 * acc + d)%Z ds k /\
  miller K ds (px, py) (xa, ya) (f, (x, y)) = Some (f', (x', y')) /\ ptw (zmul k' a) = Pt x' y' /\ f' <> 0 /\ chi f' = mil (cc_ok p) k' a.
Proof.
  intros EP EA. induction ds as [|d ds IH]; intros k f x y W ET F0 CF.
  - exists f, x, y, k. repeat split; auto.
  - cbn [walk_ok] in W. destruct W as [D W]. cbn [miller fold_left].
    destruct (run_dbl p px py (zmul k a) x y f EP ET) as (x1 & y1 & ES & E1). rewrite ES.
    set (f1 := f * f * lval (ptw (zmul k a)) (ptw (zmul k a)) (pup p)) in *.
    assert (F1' : f1 <> 0) by (apply kmul_neq0; [apply kmul_neq0; exact F0|apply line_HG_neq0]).
    assert (C1 : chi f1 = mil (cc_ok p) (2 * k) a).
    { unfold f1. rewrite !chi_mul by (try apply kmul_neq0; try exact F0; apply line_HG_neq0). rewrite CF, mil_double. reflexivity. }
    assert (EZ : aadd (zmul k a) (zmul k a) = zmul (2 * k) a) by (rewrite <- zmul_add; f_equal; lia).
    rewrite EZ in E1. clear ES.
    destruct (Z.eqb_spec d 1) as [->|N1].
    + destruct D as [D1 D2]. destruct (run_add p px py (zmul (2 * k) a) a x1 y1 xa ya f1 EP E1 EA D1 D2) as (x2 & y2 & ES & E2'). rewrite ES.
      assert (EZ2 : aadd (zmul (2 * k) a) a = zmul (2 * k + 1) a) by (rewrite zmul_add, zmul_1; reflexivity). rewrite EZ2 in E2'.
      apply IH; [exact W|exact E2'|apply kmul_neq0; [exact F1'|apply line_HG_neq0]|].
      rewrite chi_mul by (first [exact F1'|apply line_HG_neq0]). rewrite C1, mil_succ. reflexivity.
    + destruct (Z.eqb_spec d (-1)) as [->|N2].
      * destruct D as [D1 D2]. assert (EN : ptw (aneg a) = Pt xa (- ya)) by (rewrite ptw_neg, EA; reflexivity).
        destruct (run_add p px py (zmul (2 * k) a) (aneg a) x1 y1 xa (- ya) f1 EP E1 EN D2) as (x2 & y2 & ES & E2').
        { rewrite aneg_neg. exact D1. }
        unfold pneg. cbn [fst snd]. rewrite ES.
        assert (EZ2 : aadd (zmul (2 * k) a) (aneg a) = zmul (2 * k + -1) a) by (rewrite zmul_add, (zmul_opp _ 1), zmul_1; reflexivity). rewrite EZ2 in E2'.
        apply IH; [exact W|exact E2'|apply kmul_neq0; [exact F1'|apply line_HG_neq0]|].
        rewrite chi_mul by (first [exact F1'|apply line_HG_neq0]). rewrite C1. symmetry. apply mil_pred.
      * cbn [orb] in D. subst d. rewrite Z.add_0_r in *. apply IH; assumption.
Qed.
Theorem ate_run p px py a xa ya ds : pup p = Pt px py -> ptw a = Pt xa ya -> walk_ok a ds 1 -> signed_value (1%Z :: ds) = s ->
  zmul s a <> a0 -> zmul s a <> pi a -> zmul s a <> aneg (pi a) ->
  aadd (zmul s a) (pi a) <> pi (pi a) -> aadd (zmul s a) (pi a) <> aneg (pi (pi a)) ->
  exists f, optimal_ate K frob ds (px, py) (xa, ya) = Some f /\ f <> 0 /\ chi f = ate_exp p a.
Proof.
  intros EP EA W ES S0 N1 N2 N3 N4.
  destruct (miller_run p px py a xa ya ds EP EA 1%Z 1 xa ya W) as (f & x & y & k & EK & EM & ET & F0 & CF).
  { rewrite zmul_1. exact EA. } { apply k1_neq0. } { rewrite chi_1. symmetry. apply mil_1. }
  assert (EKs : k = s) by (rewrite EK, <- ES; reflexivity). rewrite EKs in *. clear EK EKs.
  unfold optimal_ate. match goal with |- context [miller ?a1 ?a2 ?a3 ?a4 ?a5] => change (miller a1 a2 a3 a4 a5) with (miller K ds (px, py) (xa, ya) (1, (xa, ya))) end.
  rewrite EM. cbn [fst snd].
  assert (E1 : ptw (pi a) = Pt (frob xa) (frob ya)).
  { rewrite ptw_pi, EA. cbn [TwistMap.tw]. unfold tx, ty. f_equal; ring. }
  assert (E2' : ptw (aneg (pi (pi a))) = Pt (frob (frob xa)) (- frob (frob ya))).
  { rewrite ptw_neg, ptw_pi, E1. cbn [TwistMap.tw pt_neg]. unfold tx, ty. f_equal; ring. }
  destruct (run_add p px py (zmul s a) (pi a) x y _ _ f EP ET E1 N1 N2) as (x1 & y1 & ES1 & ET1). rewrite ES1.
  destruct (run_add p px py (aadd (zmul s a) (pi a)) (aneg (pi (pi a))) x1 y1 _ _ (f * lval (ptw (zmul s a)) (ptw (pi a)) (pup p)) EP ET1 E2' N4) as (x2 & y2 & ES2 & ET2).
  { rewrite aneg_neg. exact N3. }
  unfold pneg. cbn [fst snd]. rewrite ES2. cbn [fst]. eexists. split; [reflexivity|]. split.
  - apply kmul_neq0; [apply kmul_neq0; [exact F0|]|]; apply line_HG_neq0.
  - rewrite !chi_mul by (try apply kmul_neq0; try exact F0; apply line_HG_neq0). rewrite CF. reflexivity.
Qed.
End PairAbs.
