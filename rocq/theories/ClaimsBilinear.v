(** Property C62: the pairing of the library is bilinear.  Specification: [pt_add], [pt_zmul] (chords and
    tangents, CurveSpec.v), [rpow] (repeated multiplication), and the groups below. *)
From Coq Require Import ZArith List Bool Lia Ring Znumtheory.
From Verif Require Import LimbModel FieldModel FieldSpec FieldProofs FieldMore Primes RingPow Algebra ExtModel ExtSpec ExtParams ExtProofs ExtFrob
  CurveSpec CurveGroup GroupLib AbTac CurveAb CurveParams CurveOrder PairingModel PairingSpec FinalExp PairingRefine PairingFinal BilinAlg PairBn G2Order PairBilin PairNonDeg.
From Verif Require Import CircuitFields PairingModel.
Import ListNotations.
Local Open Scope Z_scope.
Local Notation F := FqFld.

(** The point an affine value of the library stands for. *)
Definition aff1_point (g : affine1 F) : point F := if a1inf F g then Inf else Pt (a1x F g) (a1y F g).
Definition aff2_point (g : affine2 F) : point Fq2Fld := if a2inf F g then Inf else Pt (K := Fq2Fld) (a2x F g) (a2y F g).
(** G1: the curve y^2 = x^3 + 3 over Fq.  G2: the multiples of the library's generator on the twist. *)
Definition in_g1 (g : affine1 F) : Prop := on_curve g1_param_b (aff1_point g).
Definition g2_base : point Fq2Fld := Pt (K := Fq2Fld) g2_generator_x g2_generator_y.
Definition in_g2 (g : affine2 F) : Prop := exists k, aff2_point g = pt_zmul k g2_base.
(** Powers in the target group (its elements have order dividing [R_MOD]). *)
Definition gt_power (e : q12 F) (k : Z) : q12 F := rpow (q12_mul F) (q12_1 F) e (Z.to_nat (k mod R_MOD)).

Definition elt1 (g : affine1 F) (H : in_g1 g) : g1_group := cmk F g1_param_b (aff1_point g) H.
Lemma elt2_ex g : in_g2 g -> exists k, exists a : g2_group, a = zmul k g2_gen /\ g2v a = aff2_point g.
Proof.
  intros [k E]. exists k, (zmul k g2_gen). split; [reflexivity|]. rewrite E.
  exact (cval_zmul Fq2Fld g2_param_b g2_two g2_three g2_bnz k g2_gen).
Qed.
Lemma zmul_r1 k : r1_ok (zmul k g2_gen). Proof. apply r1_zmul, g2_frobenius_relation. Qed.
Lemma pexp_0_l a : r1_ok a -> pexp a0 a = a0.
Proof. intros H. apply (acancel _ (pexp a0 a)). rewrite <- (pexp_add_l a0 a0 a H), !aid, aid_r. reflexivity. Qed.
Lemma r1_0 : r1_ok a0. Proof. apply (ev_0 g2_group g2_pi g2_pi_add). Qed.
Lemma pexp_0_r p : pexp p a0 = a0.
Proof. apply (acancel _ (pexp p a0)). rewrite <- (pexp_add_r p a0 a0 r1_0 r1_0), !aid, aid_r. reflexivity. Qed.
Lemma hom_zmul (A B : AbGrp) (h : A -> B) : (forall a b, h (aadd a b) = aadd (h a) (h b)) -> forall k a, h (zmul k a) = zmul k (h a).
Proof.
  intros H k a. assert (H0 : h a0 = a0) by (apply (acancel B (h a0)); rewrite <- H, aid, aid_r; reflexivity).
  assert (HN : forall a, h (aneg a) = aneg (h a)) by (intros c; apply aneg_unique; rewrite <- H, ainv; exact H0).
  assert (N : forall n, h (nmul n a) = nmul n (h a)). { induction n as [|n IH]; [exact H0|]. cbn [nmul]. rewrite H, IH. reflexivity. }
  unfold zmul. destruct (k <? 0); [rewrite HN|]; rewrite N; reflexivity.
Qed.
Lemma pexp_zmul_l k p a : r1_ok a -> pexp (zmul k p) a = zmul k (pexp p a).
Proof. intros H. apply (hom_zmul g1_group T12 (fun p => pexp p a)). intros x y. apply pexp_add_l, H. Qed.
Lemma pexp_neg_r p a : r1_ok a -> pexp p (aneg a) = aneg (pexp p a).
Proof.
  intros H. apply aneg_unique. assert (HN : r1_ok (aneg a)). { rewrite <- (zmul_1 _ a), <- zmul_opp. apply r1_zmul, H. }
  rewrite <- (pexp_add_r p a _ H HN), ainv. apply pexp_0_r.
Qed.
Lemma pexp_zmul_r k p a : r1_ok a -> pexp p (zmul k a) = zmul k (pexp p a).
Proof.
  intros H. assert (N : forall n, pexp p (nmul n a) = nmul n (pexp p a)).
  { induction n as [|n IH]; [apply pexp_0_r|]. cbn [nmul]. rewrite pexp_add_r, IH; [reflexivity|exact H|]. rewrite <- zmul_nat. apply r1_zmul, H. }
  unfold zmul. destruct (k <? 0); [rewrite pexp_neg_r by (rewrite <- zmul_nat; apply r1_zmul, H)|]; rewrite N; reflexivity.
Qed.
Lemma tval_pow k t : tval (zmul k t) = gt_power (tval t) k.
Proof.
  rewrite <- (zmul_mod _ R_MOD k t (tval_r t)). rewrite tval_zmul; [reflexivity|]. apply Z.mod_pos_bound, FinalExp.r_pos.
Qed.
(** The code's pairing is [pexp]. *)
Lemma pairing_pexp P Q (p : g1_group) (a : g2_group) : g1v p = aff1_point P -> g2v a = aff2_point Q -> r1_ok a ->
  ate_pairing P Q = Some (tval (pexp p a)).
Proof.
  destruct P as [px py pi], Q as [x y qi]. unfold aff1_point, aff2_point. cbn [a1inf a1x a1y a2inf a2x a2y]. intros EP EA H.
  destruct pi.
  - assert (E : p = a0) by (apply cpt_eq; exact EP). rewrite E, (pexp_0_l a H).
    rewrite ate_pairing_eq. rewrite (pairing_identity ate_digits (Aff1 F px py true) (Aff2 F x y qi) (or_introl eq_refl)). reflexivity.
  - destruct qi; [|exact (pexp_run p px py a x y EP EA H)].
    assert (E : a = a0) by (apply cpt_eq; exact EA). rewrite E, pexp_0_r.
    rewrite ate_pairing_eq. rewrite (pairing_identity ate_digits (Aff1 F px py false) (Aff2 F x y true) (or_intror eq_refl)). reflexivity.
Qed.

(** The pairing is defined on G1 x G2 and takes values of order dividing [R_MOD]. *)
Theorem C62_defined P Q : in_g1 P -> in_g2 Q -> exists e, ate_pairing P Q = Some e /\ rpow (q12_mul F) (q12_1 F) e (Z.to_nat R_MOD) = q12_1 F.
Proof.
  intros HP HQ. destruct (elt2_ex Q HQ) as (k & a & EA & EV).
  exists (tval (pexp (elt1 P HP) a)). split; [apply pairing_pexp; [reflexivity|exact EV|rewrite EA; apply zmul_r1]|].
  pose proof (tval_zmul R_MOD (pexp (elt1 P HP) a) (Z.lt_le_incl _ _ FinalExp.r_pos)) as E. rewrite tval_r, tval_0 in E. exact (eq_sym E).
Qed.
(** Additive in the first argument. *)
Theorem C62_left P P' S Q e e' : in_g1 P -> in_g1 P' -> aff1_point S = pt_add (aff1_point P) (aff1_point P') -> in_g2 Q ->
  ate_pairing P Q = Some e -> ate_pairing P' Q = Some e' -> ate_pairing S Q = Some (q12_mul F e e').
Proof.
  intros HP HP' HS HQ E E'. destruct (elt2_ex Q HQ) as (k & a & EA & EV). assert (R : r1_ok a) by (rewrite EA; apply zmul_r1).
  rewrite (pairing_pexp P Q (elt1 P HP) a eq_refl EV R) in E. rewrite (pairing_pexp P' Q (elt1 P' HP') a eq_refl EV R) in E'.
  rewrite (pairing_pexp S Q (aadd (elt1 P HP) (elt1 P' HP')) a (eq_sym HS) EV R).
  rewrite (pexp_add_l _ _ a R), tval_add. apply some_inj in E, E'. rewrite E, E'. reflexivity.
Qed.
(** Additive in the second argument. *)
Theorem C62_right P Q Q' S e e' : in_g1 P -> in_g2 Q -> in_g2 Q' -> aff2_point S = pt_add (aff2_point Q) (aff2_point Q') ->
  ate_pairing P Q = Some e -> ate_pairing P Q' = Some e' -> ate_pairing P S = Some (q12_mul F e e').
Proof.
  intros HP HQ HQ' HS E E'. destruct (elt2_ex Q HQ) as (k & a & EA & EV). destruct (elt2_ex Q' HQ') as (k' & a' & EA' & EV').
  assert (R : r1_ok a) by (rewrite EA; apply zmul_r1). assert (R' : r1_ok a') by (rewrite EA'; apply zmul_r1).
  rewrite (pairing_pexp P Q (elt1 P HP) a eq_refl EV R) in E. rewrite (pairing_pexp P Q' (elt1 P HP) a' eq_refl EV' R') in E'.
  assert (ES : g2v (aadd a a') = aff2_point S) by (rewrite HS, <- EV, <- EV'; reflexivity).
  rewrite (pairing_pexp P S (elt1 P HP) (aadd a a') eq_refl ES (r1_add a a' R R')).
  rewrite (pexp_add_r _ a a' R R'), tval_add. apply some_inj in E, E'. rewrite E, E'. reflexivity.
Qed.
(** Scalars of either argument, of any sign, multiply in the exponent. *)
Theorem C62_scalars P Q aP bQ j k e : in_g1 P -> in_g2 Q ->
  aff1_point aP = pt_zmul j (aff1_point P) -> aff2_point bQ = pt_zmul k (aff2_point Q) ->
  ate_pairing P Q = Some e -> ate_pairing aP bQ = Some (gt_power e (j * k)).
Proof.
  intros HP HQ HJ HK E. destruct (elt2_ex Q HQ) as (m & a & EA & EV). assert (R : r1_ok a) by (rewrite EA; apply zmul_r1).
  rewrite (pairing_pexp P Q (elt1 P HP) a eq_refl EV R) in E. apply some_inj in E.
  assert (EP : g1v (zmul j (elt1 P HP) : g1_group) = aff1_point aP).
  { rewrite HJ. exact (cval_zmul F g1_param_b g1_two g1_three g1_bnz j (elt1 P HP)). }
  assert (EQ : g2v (zmul k a : g2_group) = aff2_point bQ).
  { rewrite HK, <- EV. exact (cval_zmul Fq2Fld g2_param_b g2_two g2_three g2_bnz k a). }
  rewrite (pairing_pexp aP bQ _ _ EP EQ (r1_zmul k a R)). apply (f_equal Some).
  rewrite (pexp_zmul_r k _ a R), (pexp_zmul_l j _ a R), <- zmul_mul, tval_pow, E, Z.mul_comm. reflexivity.
Qed.
(** The G2 generator of the library lies on the twist and has order exactly [R_MOD]. *)
Theorem C62_g2_generator_order k : pt_zmul k g2_base = Inf <-> (R_MOD | k).
Proof.
  rewrite <- g2_gen_order. assert (E : g2v (zmul k g2_gen) = pt_zmul k g2_base) by exact (cval_zmul Fq2Fld g2_param_b g2_two g2_three g2_bnz k g2_gen).
  rewrite <- E. split; [intros H; apply cpt_eq; exact H|intros ->; reflexivity].
Qed.
(** The pairing of the generators is not one. *)
Theorem C62_generators :
  exists e, ate_pairing (Aff1 F g1_generator_x g1_generator_y false) (Aff2 F g2_generator_x g2_generator_y false) = Some e /\ e <> q12_1 F.
Proof. exact generators_pairing. Qed.
(** The pairing of two points is one exactly when one of them is the identity. *)
Lemma nondegenerate_aux P Q : in_g1 P -> in_g2 Q -> ate_pairing P Q = Some (q12_1 F) -> aff1_point P = Inf \/ aff2_point Q = Inf.
Proof.
  intros HP HQ E. assert (N : ate_pairing (Aff1 F g1_generator_x g1_generator_y false) (Aff2 F g2_generator_x g2_generator_y false) <> Some (q12_1 F)).
  { destruct C62_generators as (e & G & N). rewrite G. intros H. apply N, some_inj, H. } destruct (elt2_ex Q HQ) as (k & a & EA & EV). assert (R : r1_ok a) by (rewrite EA; apply zmul_r1).
  rewrite (pairing_pexp P Q (elt1 P HP) a eq_refl EV R) in E. apply some_inj in E.
  destruct (g1_generated (elt1 P HP)) as (j & _ & EJ). rewrite EJ, EA in E.
  rewrite (pexp_zmul_r k _ _ g2_frobenius_relation), (pexp_zmul_l j _ _ g2_frobenius_relation), <- zmul_mul in E.
  assert (G : ate_pairing (Aff1 F g1_generator_x g1_generator_y false) (Aff2 F g2_generator_x g2_generator_y false) = Some (tval (pexp g1_gen g2_gen)))
    by (apply pairing_pexp; [reflexivity|reflexivity|exact g2_frobenius_relation]).
  rewrite G in N. set (t := pexp g1_gen g2_gen) in *.
  assert (D : (R_MOD | k * j)).
  { destruct (Zdivide_dec R_MOD (k * j)) as [D|D]; [exact D|]. exfalso. apply N. apply (f_equal Some).
    assert (RP : rel_prime (k * j) R_MOD) by (apply rel_prime_sym, prime_rel_prime; [exact R_MOD_prime|exact D]).
    destruct (rel_prime_bezout _ _ RP) as [u v H]. rewrite <- (zmul_1 _ t), <- H, zmul_add, !zmul_mul, tval_r, zmul_a0.
    assert (Z : zmul (k * j) t = a0) by (apply tval_inj; exact E). rewrite zmul_mul in Z. rewrite Z, zmul_a0, aid. reflexivity. }
  apply (prime_mult _ R_MOD_prime) in D. destruct D as [[c D]|[c D]].
  - right. rewrite <- EV, EA, D, zmul_mul, (r1_killed _ g2_frobenius_relation), zmul_a0. reflexivity.
  - left. change (aff1_point P) with (g1v (elt1 P HP)). rewrite EJ, D, zmul_mul, g1_killed, zmul_a0. reflexivity.
Qed.
Theorem C62_nondegenerate P Q : in_g1 P -> in_g2 Q -> (ate_pairing P Q = Some (q12_1 F) <-> aff1_point P = Inf \/ aff2_point Q = Inf).
Proof.
  intros HP HQ. split; [apply nondegenerate_aux; assumption|]. destruct (elt2_ex Q HQ) as (k & a & EA & EV). assert (R : r1_ok a) by (rewrite EA; apply zmul_r1).
  rewrite (pairing_pexp P Q (elt1 P HP) a eq_refl EV R). intros [H|H]; apply (f_equal Some).
  - assert (Z : elt1 P HP = a0) by (apply cpt_eq; exact H). rewrite Z, (pexp_0_l a R). reflexivity.
  - assert (Z : a = a0) by (apply cpt_eq; rewrite <- EV in H; exact H). rewrite Z, pexp_0_r. reflexivity.
Qed.
(** The generators, and three times the first, meet the hypotheses. *)
Example C62_example : in_g1 (Aff1 F g1_generator_x g1_generator_y false) /\ in_g2 (Aff2 F g2_generator_x g2_generator_y false) /\
  pt_zmul 3 g2_base <> Inf /\ pt_zmul R_MOD g2_base = Inf.
Proof.
  split; [exact g1_generator_on|]. split; [exists 1; symmetry; exact (f_equal g2v (zmul_1 _ g2_gen))|]. split.
  - intros E. apply C62_g2_generator_order in E. apply Z.divide_pos_le in E; [|lia]. pose proof g2_gen_neq0. revert E. apply Z.lt_nge. rewrite R_MOD_val. reflexivity.
  - apply C62_g2_generator_order. exists 1. lia.
Qed.
