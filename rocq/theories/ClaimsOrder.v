(** C60: the orders of G1 and Grumpkin, and scalar multiplication as an action of the scalar field. *)
From Coq Require Import ZArith List Bool Lia.
From Verif Require Import LimbModel FieldModel FieldSpec FieldProofs FieldMore ClaimsField Algebra GroupLib CurveSpec CurveGroup WeierModel WeierProofs CurveAb CurveParams ExtParams CurveOrder ClaimsCurve.
Import ListNotations.
Local Open Scope Z_scope.

Lemma group_mul {K : Fld} {b b3 : K} (OK : curve_ok K b b3) (P : point K) (H : on_curve b P) n :
  pt_mul n P = cval K b (nmul n (cmk K b P H : cgrp K b (proj1 (proj2 OK)) (proj1 (proj2 (proj2 OK))) (proj2 (proj2 (proj2 OK))))).
Proof. rewrite cval_nmul. reflexivity. Qed.

(** Every point on the curve is a multiple of the generator; the group has prime order. *)
Theorem C60_g1_cyclic P : on_curve g1_param_b P -> exists k, 0 <= k < R_MOD /\ P = pt_mul (Z.to_nat k) (Pt g1_generator_x g1_generator_y).
Proof.
  intros H. destruct (g1_generated (cmk FqFld g1_param_b P H)) as (k & R & E). exists k. split; [exact R|].
  apply (f_equal (cval FqFld g1_param_b)) in E. unfold zmul in E. destruct (Z.ltb_spec k 0); [lia|]. rewrite (group_mul g1_ok _ g1_generator_on). exact E.
Qed.
Theorem C60_grumpkin_cyclic P : on_curve grumpkin_param_b P -> exists k, 0 <= k < Q_MOD /\ P = pt_mul (Z.to_nat k) (Pt grumpkin_generator_x grumpkin_generator_y).
Proof.
  intros H. destruct (grumpkin_generated (cmk FrFld grumpkin_param_b P H)) as (k & R & E). exists k. split; [exact R|].
  apply (f_equal (cval FrFld grumpkin_param_b)) in E. unfold zmul in E. destruct (Z.ltb_spec k 0); [lia|]. rewrite (group_mul grumpkin_ok _ grumpkin_generator_on). exact E.
Qed.
Theorem C60_g1_order P : on_curve g1_param_b P -> pt_mul (Z.to_nat R_MOD) P = Inf.
Proof.
  intros H. pose proof (g1_killed (cmk FqFld g1_param_b P H)) as E. apply (f_equal (cval FqFld g1_param_b)) in E. unfold zmul in E.
  destruct (Z.ltb_spec R_MOD 0) as [L|_]; [pose proof r_pos; lia|]. rewrite (group_mul g1_ok P H). exact E.
Qed.
Theorem C60_grumpkin_order P : on_curve grumpkin_param_b P -> pt_mul (Z.to_nat Q_MOD) P = Inf.
Proof.
  intros H. pose proof (grumpkin_killed (cmk FrFld grumpkin_param_b P H)) as E. apply (f_equal (cval FrFld grumpkin_param_b)) in E. unfold zmul in E.
  destruct (Z.ltb_spec Q_MOD 0) as [L|_]; [pose proof q_pos; lia|]. rewrite (group_mul grumpkin_ok P H). exact E.
Qed.
(** So for every point of the curve: P*(a+c) = P*a + P*c and (P*a)*c = P*(ac), as the code computes them. *)
Section Module.
Variables (K : Fld) (b b3 : K) (P : fparams) (m : Z).
Hypothesis OK : curve_ok K b b3.
Hypothesis F : bn_field P m.
Hypothesis ORD : forall Q, on_curve b Q -> pt_mul (Z.to_nat m) Q = Inf.
Lemma module_distributes a c ka kc p : represents m a ka -> represents m c kc -> on_curve b (proj_pt K p) ->
  exists q qa qc, scalar_point K b3 P p (fadd P a c) = Some q /\ scalar_point K b3 P p a = Some qa /\ scalar_point K b3 P p c = Some qc /\
    proj_pt K q = pt_add (proj_pt K qa) (proj_pt K qc).
Proof. intros HA HC HP. apply (C21_distributes K b b3 OK P m a c ka kc p F HA HC HP (ORD _ HP)). Qed.
Lemma module_composes a c ka kc p : represents m a ka -> represents m c kc -> on_curve b (proj_pt K p) ->
  exists q qa qac, scalar_point K b3 P p (fmul P a c) = Some q /\ scalar_point K b3 P p a = Some qa /\ scalar_point K b3 P qa c = Some qac /\
    proj_pt K q = proj_pt K qac.
Proof.
  intros HA HC HP. assert (M1 : 1 < m) by (destruct F as [[_ ->]|[_ ->]]; vm_compute; reflexivity).
  assert (HS : represents m (fmul P a c) ((ka * kc) mod m)) by (apply (C02_mul P m); assumption).
  destruct (C21_scalar_multiplication K b b3 OK P m _ _ p F HS HP) as (q & E & V & _).
  destruct (C21_scalar_multiplication K b b3 OK P m _ _ p F HA HP) as (qa & Ea & Va & Oa).
  destruct (C21_scalar_multiplication K b b3 OK P m _ _ qa F HC Oa) as (qac & Eac & Vac & _).
  exists q, qa, qac. split; [exact E|]. split; [exact Ea|]. split; [exact Eac|]. rewrite V, Vac, Va.
  destruct HA as (_ & RA & _), HC as (_ & RC & _).
  pose (G := cgrp K b (proj1 (proj2 OK)) (proj1 (proj2 (proj2 OK))) (proj2 (proj2 (proj2 OK)))). set (g := cmk K b _ HP : G).
  assert (Z0 : zmul m g = a0).
  { apply cpt_eq. unfold zmul. destruct (Z.ltb_spec m 0); [lia|]. etransitivity; [symmetry; apply (group_mul OK _ HP)|]. apply ORD, HP. }
  assert (E2 : nmul (Z.to_nat ((ka * kc) mod m)) g = nmul (Z.to_nat kc) (nmul (Z.to_nat ka) g)).
  { rewrite <- nmul_mul, <- !zmul_nat. rewrite Nat2Z.inj_mul, !Z2Nat.id by (try lia; apply Z.mod_pos_bound; lia). rewrite (zmul_mod G m _ g Z0). apply (f_equal (fun z => zmul z g)). lia. }
  apply (f_equal (cval K b)) in E2. etransitivity; [apply (group_mul OK _ HP)|]. etransitivity; [exact E2|].
  etransitivity; [apply (cval_nmul K b (proj1 (proj2 OK)) (proj1 (proj2 (proj2 OK))) (proj2 (proj2 (proj2 OK))))|].
  apply (f_equal (pt_mul (Z.to_nat kc))). symmetry. apply (group_mul OK _ HP).
Qed.
End Module.
Theorem C60_g1_scalars a c ka kc p : represents R_MOD a ka -> represents R_MOD c kc -> on_curve g1_param_b (proj_pt FqFld p) ->
  (exists q qa qc, scalar_point FqFld g1_param_b3 fr p (fadd fr a c) = Some q /\ scalar_point FqFld g1_param_b3 fr p a = Some qa /\ scalar_point FqFld g1_param_b3 fr p c = Some qc /\
    proj_pt FqFld q = pt_add (proj_pt FqFld qa) (proj_pt FqFld qc)) /\
  (exists q qa qac, scalar_point FqFld g1_param_b3 fr p (fmul fr a c) = Some q /\ scalar_point FqFld g1_param_b3 fr p a = Some qa /\ scalar_point FqFld g1_param_b3 fr qa c = Some qac /\
    proj_pt FqFld q = proj_pt FqFld qac).
Proof.
  intros HA HC HP. assert (F : bn_field fr R_MOD) by (left; split; reflexivity).
  split; [apply (module_distributes FqFld g1_param_b g1_param_b3 fr R_MOD g1_ok F C60_g1_order a c ka kc p HA HC HP)|apply (module_composes FqFld g1_param_b g1_param_b3 fr R_MOD g1_ok F C60_g1_order a c ka kc p HA HC HP)].
Qed.
Theorem C60_grumpkin_scalars a c ka kc p : represents Q_MOD a ka -> represents Q_MOD c kc -> on_curve grumpkin_param_b (proj_pt FrFld p) ->
  (exists q qa qc, scalar_point FrFld grumpkin_param_b3 fq p (fadd fq a c) = Some q /\ scalar_point FrFld grumpkin_param_b3 fq p a = Some qa /\ scalar_point FrFld grumpkin_param_b3 fq p c = Some qc /\
    proj_pt FrFld q = pt_add (proj_pt FrFld qa) (proj_pt FrFld qc)) /\
  (exists q qa qac, scalar_point FrFld grumpkin_param_b3 fq p (fmul fq a c) = Some q /\ scalar_point FrFld grumpkin_param_b3 fq p a = Some qa /\ scalar_point FrFld grumpkin_param_b3 fq qa c = Some qac /\
    proj_pt FrFld q = proj_pt FrFld qac).
Proof.
  intros HA HC HP. assert (F : bn_field fq Q_MOD) by (right; split; reflexivity).
  split; [apply (module_distributes FrFld grumpkin_param_b grumpkin_param_b3 fq Q_MOD grumpkin_ok F C60_grumpkin_order a c ka kc p HA HC HP)|apply (module_composes FrFld grumpkin_param_b grumpkin_param_b3 fq Q_MOD grumpkin_ok F C60_grumpkin_order a c ka kc p HA HC HP)].
Qed.
(** The generators are points other than infinity. *)
Example C60_generators : on_curve g1_param_b (Pt g1_generator_x g1_generator_y) /\ on_curve grumpkin_param_b (Pt grumpkin_generator_x grumpkin_generator_y).
Proof. split; [exact g1_generator_on|exact grumpkin_generator_on]. Qed.
