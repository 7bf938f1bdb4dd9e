(** The groups of BN254 as the groups of the Groth16 statements: G1 with the scalar multiplication by
    residues, the subgroup of the twist on which the pairing is bilinear, the roots of unity of order
    [R_MOD], and the exponent of the library's pairing. *)
From Coq Require Import ZArith List Bool Lia Ring Znumtheory Eqdep_dec.
From Verif Require Import LimbModel FieldModel FieldSpec FieldProofs FieldMore Primes RingPow Algebra ExtModel ExtSpec ExtParams ExtProofs ExtFrob
  CurveSpec CurveGroup GroupLib AbTac CurveAb CurveParams CurveOrder PairingModel PairingSpec FinalExp PairingRefine PairingFinal BilinAlg PairTarget PairBn G2Order PairBilin
  CircuitFields R1csSpec Groth16Model Groth16Spec ClaimsBilinear.
Import ListNotations.
Local Open Scope Z_scope.

(** A subgroup cut out by a decidable predicate. *)
Section Sub.
Variable A : AbGrp.
Variable inb : A -> bool.
Hypothesis in_0 : inb a0 = true.
Hypothesis in_add : forall a b, inb a = true -> inb b = true -> inb (aadd a b) = true.
Hypothesis in_neg : forall a, inb a = true -> inb (aneg a) = true.
Definition subcar : Type := { a : A | inb a = true }.
Definition subval (x : subcar) : A := proj1_sig x.
Lemma sub_eq (x y : subcar) : subval x = subval y -> x = y.
Proof. destruct x as [x HX], y as [y HY]; cbn. intros E. subst y. f_equal. apply UIP_dec, Bool.bool_dec. Qed.
Definition submk (a : A) (H : inb a = true) : subcar := exist _ a H.
Definition subgrp : AbGrp.
Proof.
  refine (mkAb subcar (submk a0 in_0) (fun x y => submk (aadd (subval x) (subval y)) (in_add _ _ (proj2_sig x) (proj2_sig y)))
    (fun x => submk (aneg (subval x)) (in_neg _ (proj2_sig x))) _ _ _ _).
  - intros. apply sub_eq. cbn. apply aassoc.
  - intros. apply sub_eq. cbn. apply acomm.
  - intros. apply sub_eq. cbn. apply aid.
  - intros. apply sub_eq. cbn. apply ainv.
Defined.
Lemma subval_nmul n (x : subgrp) : subval (nmul n x) = nmul n (subval x).
Proof. induction n as [|n IH]; [reflexivity|]. cbn [nmul]. rewrite <- IH. reflexivity. Qed.
Lemma subval_zmul k (x : subgrp) : subval (zmul k x) = zmul k (subval x).
Proof. unfold zmul. destruct (k <? 0); [|apply subval_nmul]. etransitivity; [|apply f_equal, subval_nmul]. reflexivity. Qed.
End Sub.
(** Residues act on a group killed by their modulus. *)
Section Act.
Variable A : AbGrp.
Variable F : Fld.
Variable r : Z.
Variable val : F -> Z.
Hypothesis r_prime : prime r.
Hypothesis val_range : forall a, 0 <= val a < r.
Hypothesis val_inj : forall a b, val a = val b -> a = b.
Hypothesis val_add : forall a b, val (kadd a b) = (val a + val b) mod r.
Hypothesis val_mul : forall a b, val (kmul a b) = (val a * val b) mod r.
Hypothesis val_0 : val k0 = 0.
Hypothesis val_1 : val k1 = 1.
Hypothesis killed : forall x : A, zmul r x = a0.
Definition act (x : A) (a : F) : A := zmul (val a) x.
Lemma act_laws : module_laws F A act.
Proof.
  unfold act. split; [|split; [|split]].
  - intros x a b. rewrite val_add, (zmul_mod A r _ x (killed x)). apply zmul_add.
  - intros x y a. apply zmul_dist.
  - intros x a b. rewrite val_mul, (zmul_mod A r _ x (killed x)), <- zmul_mul. f_equal. ring.
  - intros x. rewrite val_1. apply zmul_1.
Qed.
Lemma act_free (x : A) a : x <> a0 -> act x a = a0 -> a = k0.
Proof.
  intros N E. apply val_inj. rewrite val_0. destruct (Z.eq_dec (val a) 0) as [Z|Z]; [exact Z|]. exfalso. apply N.
  assert (RP : rel_prime (val a) r) by (apply rel_prime_le_prime; [exact r_prime|pose proof (val_range a); lia]).
  destruct (rel_prime_bezout _ _ RP) as [u v H]. rewrite <- (zmul_1 _ x), <- H, zmul_add, !zmul_mul, killed, zmul_a0.
  unfold act in E. rewrite E, zmul_a0. apply aid.
Qed.
End Act.

(** Equality of points as the code tests it. *)
Definition peqb (K : Fld) (P Q : point K) : bool :=
  match P, Q with Inf, Inf => true | Pt x y, Pt x' y' => keqb x x' && keqb y y' | _, _ => false end.
Lemma peqb_eq (K : Fld) (P Q : point K) : peqb K P Q = true <-> P = Q.
Proof.
  split; [|intros ->; destruct Q as [|x y]; [reflexivity|cbn; rewrite !keqb_refl; reflexivity]].
  destruct P as [|x y], Q as [|x' y']; cbn; intros E; try discriminate; [reflexivity|].
  apply andb_true_iff in E. destruct E as [E1 E2]. apply keqb_eq in E1, E2. subst. reflexivity.
Qed.
Definition ceqb (K : Fld) (b : K) (P Q : cpt K b) : bool := peqb K (cval K b P) (cval K b Q).
Lemma ceqb_eq (K : Fld) (b : K) (P Q : cpt K b) : ceqb K b P Q = true <-> P = Q.
Proof. unfold ceqb. rewrite peqb_eq. split; [apply cpt_eq|intros ->; reflexivity]. Qed.
(** The subgroup of the twist. *)
Definition r1b (a : g2_group) : bool := ceqb Fq2Fld g2_param_b (ev g2_group g2_pi r1z a) (a0 : g2_group).
Lemma r1b_ok a : r1b a = true <-> r1_ok a. Proof. apply ceqb_eq. Qed.
Lemma r1b_0 : r1b a0 = true. Proof. apply r1b_ok, r1_0. Qed.
Lemma r1b_add a b : r1b a = true -> r1b b = true -> r1b (aadd a b) = true.
Proof. rewrite !r1b_ok. apply r1_add. Qed.
Lemma r1_neg a : r1_ok a -> r1_ok (aneg a).
Proof. intros H. rewrite <- (zmul_1 _ a), <- zmul_opp. apply r1_zmul, H. Qed.
Lemma r1b_neg a : r1b a = true -> r1b (aneg a) = true.
Proof. rewrite !r1b_ok. apply r1_neg. Qed.
Definition g2_sub : AbGrp := subgrp g2_group r1b r1b_0 r1b_add r1b_neg.
Definition g2s (x : g2_sub) : g2_group := subval g2_group r1b x.
Lemma g2s_ok x : r1_ok (g2s x). Proof. apply r1b_ok. exact (proj2_sig x). Qed.
Lemma g2s_eq x y : g2s x = g2s y -> x = y. Proof. apply sub_eq. Qed.
Lemma g2s_zmul k x : g2s (zmul k x) = zmul k (g2s x). Proof. apply (subval_zmul g2_group r1b r1b_0 r1b_add r1b_neg). Qed.
Lemma g2s_killed x : zmul R_MOD x = (a0 : g2_sub). Proof. apply g2s_eq. rewrite g2s_zmul. exact (r1_killed _ (g2s_ok x)). Qed.
Definition g2s_gen : g2_sub := submk g2_group r1b g2_gen (proj2 (r1b_ok _) g2_frobenius_relation).
Definition bn254_pair (x : g1_group) (y : g2_sub) : T12 := pexp x (g2s y).
Definition bn254_groups : groups FrFld :=
  mkGroups FrFld g1_group g2_sub T12 (ceqb FqFld g1_param_b) (fun x y => ceqb Fq2Fld g2_param_b (g2s x) (g2s y))
    (fun x y => q12_eqb FqFld (tval x) (tval y))
    (act g1_group FrFld fr_val) (act g2_sub FrFld fr_val) bn254_pair g1_gen g2s_gen.

Lemma fr_act_laws (A : AbGrp) : (forall x : A, zmul R_MOD x = a0) -> module_laws FrFld A (act A FrFld fr_val).
Proof.
  intros H. apply (act_laws A FrFld R_MOD fr_val (cf_add _ _ _ _ _ _ _ fr_circuit) (cf_mul _ _ _ _ _ _ _ fr_circuit) (cf_one _ _ _ _ _ _ _ fr_circuit) H).
Qed.
Lemma fr_act_free (A : AbGrp) (x : A) a : (forall x : A, zmul R_MOD x = a0) -> x <> a0 -> act A FrFld fr_val x a = a0 -> a = k0.
Proof.
  intros H. apply (act_free A FrFld R_MOD fr_val R_MOD_prime (cf_range _ _ _ _ _ _ _ fr_circuit) (cf_inj _ _ _ _ _ _ _ fr_circuit) (cf_zero _ _ _ _ _ _ _ fr_circuit) H).
Qed.
Lemma g1_gen_neq0 : g1_gen <> a0. Proof. intros E. discriminate (f_equal (cval FqFld g1_param_b) E). Qed.
Lemma g2s_gen_val : g2s g2s_gen = g2_gen. Proof. reflexivity. Qed.
Lemma bn254_pair_gen k : bn254_pair (zmul k g1_gen) g2s_gen = zmul k (pexp g1_gen g2_gen).
Proof. unfold bn254_pair. rewrite g2s_gen_val. apply pexp_zmul_l, g2_frobenius_relation. Qed.
Theorem bn254_groups_ok : pexp g1_gen g2_gen <> a0 -> bilinear_groups bn254_groups.
Proof.
  intros N. split; unfold bn254_groups; cbn [gA1 gA2 gAT geq1 geq2 geqT gmul1 gmul2 gpair gg1 gg2].
  - apply ceqb_eq.
  - intros x y. rewrite ceqb_eq. split; [apply g2s_eq|intros ->; reflexivity].
  - intros x y. rewrite (q12_eqb_eq FqFld). split; [apply tval_inj|intros ->; reflexivity].
  - apply fr_act_laws, g1_killed.
  - apply fr_act_laws, g2s_killed.
  - intros x x' y. apply (pexp_add_l x x' (g2s y) (g2s_ok y)).
  - intros x y y'. apply (pexp_add_r x (g2s y) (g2s y') (g2s_ok y) (g2s_ok y')).
  - intros x y a. unfold bn254_pair, act. rewrite g2s_zmul, (pexp_zmul_l _ _ _ (g2s_ok y)), (pexp_zmul_r _ _ _ (g2s_ok y)). reflexivity.
  - intros a. apply fr_act_free; [apply g1_killed|exact g1_gen_neq0].
  - intros a. apply fr_act_free; [apply g2s_killed|]. intros E. apply g2_gen_neq0. exact (f_equal g2s E).
  - intros a E. apply (fr_act_free T12 (pexp g1_gen g2_gen) a tval_r N). rewrite <- E. symmetry. exact (bn254_pair_gen (fr_val a)).
Qed.
