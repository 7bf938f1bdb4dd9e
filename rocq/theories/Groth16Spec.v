(** The setting of the Groth16 statements: groups with a bilinear pairing, and circuits. *)
From Coq Require Import ZArith List Bool.
From Verif Require Import Algebra GroupLib PolySpec PolyModel R1csModel R1csSpec Groth16Model.
Import ListNotations.
Local Open Scope fld_scope.

(** Two groups with scalar multiplication by [F], generators, and a map into a third. *)
Record groups (F : Fld) := mkGroups {
  gA1 : AbGrp; gA2 : AbGrp; gAT : AbGrp;
  geq1 : gA1 -> gA1 -> bool; geq2 : gA2 -> gA2 -> bool; geqT : gAT -> gAT -> bool;
  gmul1 : gA1 -> F -> gA1; gmul2 : gA2 -> F -> gA2; gpair : gA1 -> gA2 -> gAT; gg1 : gA1; gg2 : gA2 }.
Arguments gA1 {F}. Arguments gA2 {F}. Arguments gAT {F}. Arguments geq1 {F}. Arguments geq2 {F}. Arguments geqT {F}.
Arguments gmul1 {F}. Arguments gmul2 {F}. Arguments gpair {F}. Arguments gg1 {F}. Arguments gg2 {F}.
Definition module_laws (F : Fld) (A : AbGrp) (mul : A -> F -> A) : Prop :=
  (forall x a b, mul x (a + b) = aadd (mul x a) (mul x b)) /\ (forall x y a, mul (aadd x y) a = aadd (mul x a) (mul y a)) /\
  (forall x a b, mul (mul x a) b = mul x (a * b)) /\ (forall x, mul x 1 = x).
Record bilinear_groups {F : Fld} (G : groups F) : Prop := {
  bg_eq1 : forall x y, geq1 G x y = true <-> x = y;
  bg_eq2 : forall x y, geq2 G x y = true <-> x = y;
  bg_eqT : forall x y, geqT G x y = true <-> x = y;
  bg_mod1 : module_laws F (gA1 G) (gmul1 G);
  bg_mod2 : module_laws F (gA2 G) (gmul2 G);
  bg_pair_l : forall x x' y, gpair G (aadd x x') y = aadd (gpair G x y) (gpair G x' y);
  bg_pair_r : forall x y y', gpair G x (aadd y y') = aadd (gpair G x y) (gpair G x y');
  bg_pair_mul : forall x y a, gpair G (gmul1 G x a) y = gpair G x (gmul2 G y a);
  bg_gen1 : forall a, gmul1 G (gg1 G) a = a0 -> a = 0;
  bg_gen2 : forall a, gmul2 G (gg2 G) a = a0 -> a = 0;
  bg_nondegenerate : forall a, gpair G (gmul1 G (gg1 G) a) (gg2 G) = a0 -> a = 0 }.

(** The modelled functions in given groups. *)
Section Run.
Variables (F : Fld) (two_adicity : nat) (root gen : F) (G : groups F).
Definition g_setup := setup F two_adicity root gen (gA1 G) (gA2 G) (gAT G) (gmul1 G) (gmul2 G) (gpair G) (gg1 G) (gg2 G).
Definition g_prove := create_proof F two_adicity root gen (gA1 G) (gA2 G) (geq1 G) (geq2 G) (gmul1 G) (gmul2 G).
Definition g_verify := verify F (gA1 G) (gA2 G) (gAT G) (geqT G) (gmul1 G) (gpair G).
Definition g_prepare := prepare (gA1 G) (gA2 G) (gAT G) (gpair G).
End Run.
Arguments g_setup {F}. Arguments g_prove {F}. Arguments g_verify {F}. Arguments g_prepare {F}.

(** Two constraint systems of one circuit: the same gates over the same wires, other values. *)
Definition same_circuit {F : Fld} (cs cs' : r1cs F) : Prop :=
  r_m cs = r_m cs' /\ r_a cs = r_a cs' /\ r_b cs = r_b cs' /\ r_c cs = r_c cs' /\
  length (r_x cs) = length (r_x cs') /\ length (r_w cs) = length (r_w cs').
(** Toxic waste for which the key is usable: invertible, and [tau] outside the domain of size [n]. *)
Definition usable {F : Fld} (n : nat) (gamma delta tau : F) : Prop := gamma <> 0 /\ delta <> 0 /\ kpow tau n <> 1.

(** The exponents themselves: every group is the additive group of the field, the pairing multiplies. *)
Section Exps.
Variable F : Fld.
Add Field gsf : (kth F).
Definition fld_grp : AbGrp.
Proof. refine (mkAb F 0 kadd kopp _ _ _ _); intros; ring. Defined.
Definition exps : groups F := mkGroups F fld_grp fld_grp fld_grp keqb keqb keqb kmul kmul kmul (1 : F) (1 : F).
Lemma exps_ok : bilinear_groups exps.
Proof.
  assert (M : module_laws F fld_grp kmul).
  { split; [intros; cbn; ring|]. split; [intros; cbn; ring|]. split; [intros; cbn; ring|intros; cbn; ring]. }
  constructor; try exact M; try (intros; cbn; ring); try exact (keqb_eq F).
  - intros a H. transitivity (1 * a); [ring|exact H].
  - intros a H. transitivity (1 * a); [ring|exact H].
  - intros a H. transitivity (1 * a * 1); [ring|exact H].
Qed.
End Exps.

(** Algebraic provers: every group element they send is a linear combination, with fixed coefficients,
    of the group elements in the published key (missing coefficients count as zero). *)
Record combination1 (F : Fld) := mkC1 { k_g : F; k_alpha : F; k_beta : F; k_delta : F; k_ic : list F; k_h : list F; k_l : list F; k_a : list F; k_b : list F }.
Record combination2 (F : Fld) := mkC2 { h_g : F; h_beta : F; h_gamma : F; h_delta : F; h_b : list F }.
Arguments k_g {F}. Arguments k_alpha {F}. Arguments k_beta {F}. Arguments k_delta {F}. Arguments k_ic {F}. Arguments k_h {F}.
Arguments k_l {F}. Arguments k_a {F}. Arguments k_b {F}.
Arguments h_g {F}. Arguments h_beta {F}. Arguments h_gamma {F}. Arguments h_delta {F}. Arguments h_b {F}.
Section Combine.
Variables (F : Fld) (G : groups F).
Definition lin {A : AbGrp} (mul : A -> F -> A) (bases : list A) (coeffs : list F) : A :=
  asum (map (fun '(b, c) => mul b c) (combine bases coeffs)).
Definition combine1 (pk : params (gA1 G) (gA2 G)) (c : combination1 F) : gA1 G :=
  let vk := p_vk _ _ pk in
  aadd (lin (gmul1 G) [gg1 G; vk_alpha_g1 _ _ vk; vk_beta_g1 _ _ vk; vk_delta_g1 _ _ vk] [k_g c; k_alpha c; k_beta c; k_delta c])
   (aadd (lin (gmul1 G) (vk_ic _ _ vk) (k_ic c)) (aadd (lin (gmul1 G) (p_h _ _ pk) (k_h c))
     (aadd (lin (gmul1 G) (p_l _ _ pk) (k_l c)) (aadd (lin (gmul1 G) (p_a _ _ pk) (k_a c)) (lin (gmul1 G) (p_b_g1 _ _ pk) (k_b c)))))).
Definition combine2 (pk : params (gA1 G) (gA2 G)) (c : combination2 F) : gA2 G :=
  let vk := p_vk _ _ pk in
  aadd (lin (gmul2 G) [gg2 G; vk_beta_g2 _ _ vk; vk_gamma_g2 _ _ vk; vk_delta_g2 _ _ vk] [h_g c; h_beta c; h_gamma c; h_delta c])
   (lin (gmul2 G) (p_b_g2 _ _ pk) (h_b c)).
End Combine.
Arguments combine1 {F}. Arguments combine2 {F}.
