(** The three short Weierstrass curves of the library. *)
From Coq Require Import ZArith List Bool Field Lia.
From Verif Require Import LimbModel LimbProofs FieldModel FieldSpec FieldProofs Algebra ExtModel ExtParams ExtProofs ExtFrob CurveSpec WeierModel.
Import ListNotations.
Local Open Scope Z_scope.

(** grumpkin/src/params.rs:4-10 [GENERATOR_X], [GENERATOR_Y]. *)
Definition grumpkin_generator_x : FrFld := k1.
Definition grumpkin_generator_y : FrFld :=
  exist _ (L4 0x11b2dff1448c41d8 0x23d3446f21c77dc3 0xaa7b8cf435dfafbb 0x14b34cf69dc25d68) eq_refl.
(** grumpkin/src/params.rs:13-19 [PARAM_B], [PARAM_B3]. *)
Definition grumpkin_param_b : FrFld :=
  exist _ (L4 0xdd7056026000005a 0x223fa97acb319311 0xcc388229877910c0 0x034394632b724eaa) eq_refl.
Definition grumpkin_param_b3 : FrFld := kadd (kadd grumpkin_param_b grumpkin_param_b) grumpkin_param_b.

(** What the point formulas need of a base field and its constants. *)
Definition curve_ok (K : Fld) (b b3 : K) : Prop :=
  b3 = kadd (kadd b b) b /\ kadd k1 k1 <> (k0 : K) /\ kadd (kadd k1 k1) k1 <> (k0 : K) /\ b <> k0.

Lemma keqb_neq (K : Fld) (a b : K) : keqb a b = false -> a <> b.
Proof. intros E H. apply keqb_eq in H. congruence. Qed.
Lemma g1_ok : curve_ok FqFld g1_param_b g1_param_b3.
Proof. split; [reflexivity|]. split; [|split]; apply keqb_neq; vm_compute; reflexivity. Qed.
Lemma grumpkin_ok : curve_ok FrFld grumpkin_param_b grumpkin_param_b3.
Proof. split; [reflexivity|]. split; [|split]; apply keqb_neq; vm_compute; reflexivity. Qed.
Lemma q2_neq (a b : q2 FqFld) : raw_eqb (lim2 a) (lim2 b) = false -> a <> b.
Proof. intros E H. subst b. unfold raw_eqb in E. rewrite !(proj2 (eqb4_eq _ _) eq_refl) in E. discriminate. Qed.
Lemma g2_ok : curve_ok Fq2Fld g2_param_b g2_param_b3.
Proof. split; [reflexivity|]. split; [|split]; apply q2_neq; vm_compute; reflexivity. Qed.
Lemma g1_generator_on : on_curve g1_param_b (Pt g1_generator_x g1_generator_y).
Proof. apply keqb_eq. vm_compute. reflexivity. Qed.
Lemma grumpkin_generator_on : on_curve grumpkin_param_b (Pt grumpkin_generator_x grumpkin_generator_y).
Proof. apply keqb_eq. vm_compute. reflexivity. Qed.
Lemma g2_generator_on : on_curve (K := Fq2Fld) g2_param_b (Pt (K := Fq2Fld) g2_generator_x g2_generator_y).
Proof. apply raw_eqb_eq. vm_compute. reflexivity. Qed.
Lemma grumpkin_b_value : grumpkin_param_b = fr_mk (-17).
Proof. apply keqb_eq. vm_compute. reflexivity. Qed.
Lemma g1_b_value : g1_param_b = fq_mk 3. Proof. reflexivity. Qed.
(** The G2 curve is the sextic twist: b * (9 + u) = 3. *)
Lemma g2_b_value : q2_mul FqFld g2_param_b (Q2 (fq_mk 9) (fq_mk 1)) = Q2 (fq_mk 3) (fq_mk 0).
Proof. apply raw_eqb_eq. vm_compute. reflexivity. Qed.
