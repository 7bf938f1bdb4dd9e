(** Property C56, continued: the target group is a group, its generator is the pairing of the two generators
    and has order exactly [R_MOD].  Specification: [rpow] (repeated multiplication), [q12_mul] (ExtSpec.v). *)
From Coq Require Import ZArith List Bool Lia Ring Znumtheory.
From Verif Require Import LimbModel LimbProofs FieldModel FieldSpec FieldProofs FieldMore Primes
  Algebra ExtModel ExtSpec ExtProofs ExtParams RingPow ExtFrob FinalExp PairingModel PairingSpec PairingProofs PairingRefine PairingFinal.
From Verif Require Import CurveSpec CurveGroup GroupLib AbTac CurveAb CurveParams CurveOrder G2Order PairBilin PairNum PairNonDegData PairNonDeg CircuitFields.
From Verif Require Import Fq2Sqrt PairBn ClaimsBilinear.
From Verif Require Import PairingModel GtModel.
Import ListNotations.
Local Open Scope Z_scope.
Local Notation F := FqFld.
Add Ring gt12 : (q12_ring F).
Local Notation pw := (rpow (q12_mul F) (q12_1 F)).

(** The elements of the group: the values of Fq12 of norm one over Fq6. *)
Definition gt_member (g : q12 F) : Prop := q12_mul F g (q12_conj F g) = q12_1 F.

Lemma conj_mul_F a b : q12_conj F (q12_mul F a b) = q12_mul F (q12_conj F a) (q12_conj F b).
Proof. rewrite !conj_pz. apply (rpow_mul_l _ _ _ _ _ _ (q12_ring F)). Qed.
Lemma conj_1 : q12_conj F (q12_1 F) = q12_1 F.
Proof. rewrite conj_pz. apply pz_one. Qed.
Lemma member_conj g : gt_member g -> gt_member (q12_conj F g).
Proof. unfold gt_member. intros H. rewrite <- conj_mul_F, H. exact conj_1. Qed.
Lemma member_conj_conj g : gt_member g -> q12_conj F (q12_conj F g) = g.
Proof.
  intros H. pose proof (member_conj g H) as C. unfold gt_member in H, C.
  transitivity (q12_mul F (q12_mul F g (q12_conj F g)) (q12_conj F (q12_conj F g))); [rewrite H; ring|].
  transitivity (q12_mul F g (q12_mul F (q12_conj F g) (q12_conj F (q12_conj F g)))); [ring|]. rewrite C. ring.
Qed.

(** A commutative group: closed under the operations, with neutral element [identity] and inverse [neg]. *)
Theorem C56_group :
  gt_member (gt_identity F) /\
  (forall a b, gt_member a -> gt_member b -> gt_member (gt_add F a b) /\ gt_member (gt_sub F a b)) /\
  (forall a, gt_member a -> gt_member (PairingModel.gt_neg F a) /\ gt_add F a (PairingModel.gt_neg F a) = gt_identity F /\ PairingModel.gt_neg F (PairingModel.gt_neg F a) = a) /\
  (forall a b c, gt_add F (gt_add F a b) c = gt_add F a (gt_add F b c)) /\
  (forall a b, gt_add F a b = gt_add F b a) /\
  (forall a, gt_add F a (gt_identity F) = a).
Proof.
  unfold gt_sub, gt_add, PairingModel.gt_neg, gt_identity. 
  assert (M : forall a b, gt_member a -> gt_member b -> gt_member (q12_mul F a b)).
  { unfold gt_member. intros a b A B. rewrite conj_mul_F.
    transitivity (q12_mul F (q12_mul F a (q12_conj F a)) (q12_mul F b (q12_conj F b))); [ring|]. rewrite A, B. ring. }
  split; [unfold gt_member; rewrite conj_1; ring|]. split; [intros a b A B; split; apply M; try assumption; apply member_conj, B|].
  split; [intros a A; split; [exact (member_conj a A)|split; [exact A|exact (member_conj_conj a A)]]|].
  split; [intros; ring|split; intros; ring].
Qed.
(** Subtraction undoes addition, doubling adds a value to itself, and the other operators are these. *)
Theorem C56_operators a b :
  (gt_member b -> gt_sub F (gt_add F a b) b = a) /\
  (gt_member a -> gt_member b -> PairingModel.gt_neg F (gt_sub F a b) = gt_sub F b a) /\
  gt_double F a = gt_add F a a /\ gt_mul F a b = gt_add F a b /\
  gt_add_assign F a b = gt_add F a b /\ gt_sub_assign F a b = gt_sub F a b.
Proof.
  split.
  - unfold gt_sub, gt_add, PairingModel.gt_neg, gt_member. intros B.
    transitivity (q12_mul F a (q12_mul F b (q12_conj F b))); [ring|]. rewrite B. ring.
  - split; [|split; [exact (q12_sq_mul F a)|repeat split]].
    unfold gt_sub, gt_add, PairingModel.gt_neg. intros A B. rewrite conj_mul_F, (member_conj_conj b B). ring.
Qed.
(** What the final exponentiation returns is in the group. *)
Theorem C56_outputs f g : fe f = Some g -> gt_member g.
Proof. exact (Fq2Sqrt.gt_neg f g). Qed.

(** So is what the pairing returns, on any two affine values. *)
Theorem C56_pairing_outputs P Q g : ate_pairing P Q = Some g -> gt_member g.
Proof.
  intros E. change (ate_pairing P Q) with (bind (ate_multi [(P, ate_prepare Q)]) fe) in E.
  destruct (ate_multi [(P, ate_prepare Q)]) as [f|]; [exact (C56_outputs f _ E)|discriminate E].
Qed.

(** ** The generator. *)
Lemma gen_parts : map lim2 [d0 (e0 gt_generator); d1 (e0 gt_generator); d2 (e0 gt_generator); d0 (e1 gt_generator); d1 (e1 gt_generator); d2 (e1 gt_generator)] =
  let w := h12 F phi w_e in map lim2 [d0 (e0 w); d1 (e0 w); d2 (e0 w); d0 (e1 w); d1 (e1 w); d2 (e1 w)].
Proof. vm_cast_no_check (eq_refl (map lim2 [d0 (e0 gt_generator); d1 (e0 gt_generator); d2 (e0 gt_generator); d0 (e1 gt_generator); d1 (e1 gt_generator); d2 (e1 gt_generator)])). Qed.
Theorem gen_value : gt_generator = h12 F phi w_e.
Proof.
  pose proof gen_parts as H. cbv zeta in H. revert H. generalize (h12 F phi w_e) gt_generator. intros w g H. cbn [map] in H.
  injection H as H1 H2 H3 H4 H5 H6 H7 H8 H9 H10 H11 H12.
  destruct g as [[a1 a2 a3] [a4 a5 a6]], w as [[b1 b2 b3] [b4 b5 b6]]. cbn [e0 e1 d0 d1 d2] in *.
  f_equal; f_equal; apply lim2_inj; unfold lim2; congruence.
Qed.
(** It is the pairing of the generators of the two curves. *)
Theorem C56_generator_is_pairing :
  ate_pairing (Aff1 F g1_generator_x g1_generator_y false) (Aff2 F g2_generator_x g2_generator_y false) = Some gt_generator.
Proof. rewrite gen_value. exact generators_pairing_value. Qed.
Lemma gen_not_one : gt_generator <> q12_1 F.
Proof. rewrite gen_value. exact (not_one_ok _ w_e_not_one). Qed.
Lemma g2_gen_in : in_g2 (Aff2 F g2_generator_x g2_generator_y false).
Proof. exact (proj1 (proj2 C62_example)). Qed.
Lemma g1_gen_in : in_g1 (Aff1 F g1_generator_x g1_generator_y false).
Proof. exact g1_generator_on. Qed.
Lemma gen_killed : pw gt_generator (Z.to_nat R_MOD) = q12_1 F.
Proof.
  destruct (C62_defined _ _ g1_gen_in g2_gen_in) as (e & E & K). rewrite C56_generator_is_pairing in E. apply some_inj in E. rewrite E. exact K.
Qed.
(** Its order is exactly [R_MOD]. *)
Theorem C56_generator_order n : pw gt_generator n = gt_identity F <-> (R_MOD | Z.of_nat n).
Proof.
  unfold gt_identity. pose proof (q12_ring F) as RR. split.
  - intros H. destruct (Zdivide_dec R_MOD (Z.of_nat n)) as [D|D]; [exact D|exfalso]. apply gen_not_one.
    assert (RP : rel_prime (Z.of_nat n) R_MOD) by (apply rel_prime_sym, prime_rel_prime; [exact R_MOD_prime|exact D]).
    destruct (rel_prime_bezout _ _ RP) as [u v B].
    (* a nonnegative combination: u' * n = 1 + w * R *)
    pose proof FinalExp.r_pos as RP0. set (u' := u mod R_MOD). 
    assert (U : 0 <= u' < R_MOD) by (apply Z.mod_pos_bound, RP0).
    assert (E : exists w, u' * Z.of_nat n = 1 + w * R_MOD).
    { exists (- v - u / R_MOD * Z.of_nat n). unfold u'. rewrite Z.mod_eq by lia. replace ((u - R_MOD * (u / R_MOD)) * Z.of_nat n) with (u * Z.of_nat n - u / R_MOD * Z.of_nat n * R_MOD) by ring.
      replace (u * Z.of_nat n) with (1 - v * R_MOD) by lia. ring. }
    destruct E as [w E]. assert (W : 0 <= w).
    { destruct (Z_lt_le_dec w 0) as [L|L]; [|exact L]. exfalso.
      assert (w * R_MOD <= - R_MOD) by (replace (- R_MOD) with (-1 * R_MOD) by ring; apply Z.mul_le_mono_nonneg_r; lia).
      assert (0 <= u' * Z.of_nat n) by (apply Z.mul_nonneg_nonneg; lia).
      pose proof (prime_ge_2 _ R_MOD_prime). lia. }
    assert (E' : (n * Z.to_nat u' = 1 + Z.to_nat R_MOD * Z.to_nat w)%nat).
    { apply Nat2Z.inj. rewrite Nat2Z.inj_mul, Nat2Z.inj_add, Nat2Z.inj_mul, !Z2Nat.id by lia. change (Z.of_nat 1) with 1. rewrite Z.mul_comm, E. ring. }
    transitivity (pw gt_generator (1 + Z.to_nat R_MOD * Z.to_nat w)).
    + rewrite (rpow_add _ _ _ _ _ _ RR), (rpow_mul _ _ _ _ _ _ RR), gen_killed, (rpow_1_l _ _ _ _ _ _ RR), (rpow_1_r _ _ _ _ _ _ RR). ring.
    + rewrite <- E', (rpow_mul _ _ _ _ _ _ RR), H. apply (rpow_1_l _ _ _ _ _ _ RR).
  - intros [k D]. pose proof FinalExp.r_pos as RP0.
    assert (K : 0 <= k) by (destruct (Z_lt_le_dec k 0) as [L|L]; [|exact L]; exfalso; pose proof (Z.mul_neg_pos k R_MOD L RP0); lia).
    assert (E : (n = Z.to_nat R_MOD * Z.to_nat k)%nat).
    { apply Nat2Z.inj. rewrite Nat2Z.inj_mul, !Z2Nat.id by lia. rewrite D. ring. }
    rewrite E, (rpow_mul _ _ _ _ _ _ RR), gen_killed. apply (rpow_1_l _ _ _ _ _ _ RR).
Qed.
(** The pairing of any point of G1 with any point of G2 is a multiple of the generator, and every multiple is such a pairing. *)
Theorem C56_generates :
  (forall P Q e, in_g1 P -> in_g2 Q -> ate_pairing P Q = Some e -> exists n, e = pw gt_generator n) /\
  (forall n, exists P Q, in_g1 P /\ in_g2 Q /\ ate_pairing P Q = Some (pw gt_generator n)).
Proof.
  split.
  - intros P Q e HP HQ E. destruct (g1_generated (elt1 P HP)) as (j & _ & EJ). destruct HQ as [k EQ].
    assert (EP : aff1_point P = pt_zmul j (aff1_point (Aff1 F g1_generator_x g1_generator_y false))).
    { change (aff1_point P) with (g1v (elt1 P HP)). rewrite EJ. exact (cval_zmul F g1_param_b g1_two g1_three g1_bnz j g1_gen). }
    rewrite (C62_scalars _ _ P Q j k gt_generator g1_gen_in g2_gen_in EP EQ C56_generator_is_pairing) in E.
    apply some_inj in E. eexists. symmetry. exact E.
  - intros n. set (p := zmul (Z.of_nat n) g1_gen : g1_group).
    pose (P := match g1v p with Inf => Aff1 F k0 k0 true | Pt x y => Aff1 F x y false end).
    assert (EP : aff1_point P = g1v p) by (unfold P; destruct (g1v p); reflexivity).
    exists P, (Aff2 F g2_generator_x g2_generator_y false).
    split; [unfold in_g1; rewrite EP; exact (cval_on F g1_param_b p)|]. split; [exact g2_gen_in|].
    rewrite (pairing_pexp P (Aff2 F g2_generator_x g2_generator_y false) p g2_gen (eq_sym EP) eq_refl g2_frobenius_relation).
    pose proof C56_generator_is_pairing as G.
    rewrite (pairing_pexp (Aff1 F g1_generator_x g1_generator_y false) (Aff2 F g2_generator_x g2_generator_y false) g1_gen g2_gen eq_refl eq_refl g2_frobenius_relation) in G.
    apply some_inj in G. unfold p. rewrite (pexp_zmul_l _ _ _ g2_frobenius_relation), tval_zmul by lia. rewrite G. unfold pz. rewrite Nat2Z.id. reflexivity.
Qed.
(** The generator is an element of the group, and not the neutral one. *)
Theorem C56_generator : gt_member gt_generator /\ gt_generator <> gt_identity F.
Proof.
  split; [|exact gen_not_one]. exact (C56_pairing_outputs _ _ _ C56_generator_is_pairing).
Qed.
(** The limbs written in the source are the Montgomery forms of the generator's coordinates. *)
Example C56_generator_example :
  map (fun k : FqFld => lf_limbs Q_MOD k) (flat_map (fun z : q6 F => [c0 (d0 z); c1 (d0 z); c0 (d1 z); c1 (d1 z); c0 (d2 z); c1 (d2 z)]) [e0 gt_generator; e1 gt_generator]) = gt_generator_limbs.
Proof. vm_compute. reflexivity. Qed.
