(** Proofs about the tower over an arbitrary field. *)
From Coq Require Import ZArith List Bool Lia Field Ring.
From Verif Require Import LimbModel FieldModel Algebra ExtModel ExtSpec.
Import ListNotations.

(** Conversions between coordinates and coefficient lists. *)
Section Q2.
Variable F : Fld.
Local Open Scope fld_scope.
Add Field ff : (kth F).
Notation q2 := (q2 F).
Lemma q2_eq (a b : q2) : c0 a = c0 b -> c1 a = c1 b -> a = b.
Proof. destruct a, b; cbn; congruence. Qed.
Ltac q2r := repeat intros []; apply q2_eq; cbn; unfold kdbl, ksq; ring.
Lemma q2_ring : ring_theory (q2_0 F) (q2_1 F) (q2_add F) (q2_mul F) (q2_sub F) (q2_neg F) (@eq q2).
Proof. constructor; q2r. Qed.
Lemma q2_sq_mul a : q2_sq F a = q2_mul F a a. Proof. revert a; q2r. Qed.
Lemma q2_dbl_add a : q2_dbl F a = q2_add F a a. Proof. revert a; q2r. Qed.
Definition k9 : F := kofnat 9.
Definition q2_xi : q2 := Q2 k9 1.
Lemma q2_nonres_mul a : q2_nonres F a = q2_mul F q2_xi a. Proof. unfold q2_xi, k9. revert a; q2r. Qed.
Lemma q2_eqb_eq a b : q2_eqb F a b = true <-> a = b.
Proof.
  unfold q2_eqb. rewrite andb_true_iff, !keqb_eq. split; [intros []; apply q2_eq; assumption|intros ->; auto].
Qed.
Lemma q2_is0_eq a : q2_is0 F a = true <-> a = q2_0 F.
Proof. unfold q2_is0, kis0. rewrite andb_true_iff, !keqb_eq. split; [intros []; apply q2_eq; assumption|intros ->; auto]. Qed.
Lemma q2_conj_mul a b : q2_conj F (q2_mul F a b) = q2_mul F (q2_conj F a) (q2_conj F b). Proof. revert a b; q2r. Qed.
Lemma q2_conj_add a b : q2_conj F (q2_add F a b) = q2_add F (q2_conj F a) (q2_conj F b). Proof. revert a b; q2r. Qed.
Lemma q2_conj_conj a : q2_conj F (q2_conj F a) = a. Proof. revert a; q2r. Qed.
Definition q2_norm (a : q2) : F := c0 a * c0 a + c1 a * c1 a.
Lemma q2_norm_mul a b : q2_norm (q2_mul F a b) = q2_norm a * q2_norm b.
Proof. unfold q2_norm; cbn; ring. Qed.
(** The inverse, once -1 is known not to be a square. *)
Definition anisotropic : Prop := forall x y : F, x * x + y * y = 0 -> x = 0 /\ y = 0.
Hypothesis AN : anisotropic.
Definition q2_inv (a : q2) : q2 := let t := kinv (ksq (c0 a) + ksq (c1 a)) in Q2 (t * c0 a) (t * - c1 a).
Lemma q2_norm_neq0 a : a <> q2_0 F -> q2_norm a <> 0.
Proof. intros N H. apply AN in H as []. apply N, q2_eq; assumption. Qed.
Lemma q2_inv_l a : a <> q2_0 F -> q2_mul F (q2_inv a) a = q2_1 F.
Proof.
  intros N. pose proof (kinv_l F _ (q2_norm_neq0 a N)) as H. unfold q2_norm in H. unfold q2_inv, ksq. set (t := kinv _) in *.
  apply q2_eq; cbn; [rewrite <- H|]; ring.
Qed.
Lemma q2_invert_full_spec a :
  (a = q2_0 F -> q2_invert_full F a = Some None) /\ (a <> q2_0 F -> q2_invert_full F a = Some (Some (q2_inv a))).
Proof.
  unfold q2_invert_full. destruct (q2_is0 F a) eqn:E.
  - apply q2_is0_eq in E. split; [reflexivity|contradiction].
  - assert (N : a <> q2_0 F) by (intros H; apply q2_is0_eq in H; congruence). split; [contradiction|intros _].
    unfold kinvert, kis0. destruct (keqb_spec F (ksq (c0 a) + ksq (c1 a)) 0) as [H|_]; [|reflexivity].
    exfalso. apply (q2_norm_neq0 a N). exact H.
Qed.
Lemma q2_invert_spec a :
  (a = q2_0 F -> q2_invert F a = None) /\ (a <> q2_0 F -> q2_invert F a = Some (q2_inv a)).
Proof.
  unfold q2_invert. destruct (q2_invert_full_spec a) as [A C]. split; intros H; [rewrite (A H)|rewrite (C H)]; reflexivity.
Qed.
Lemma q2_theory : field_theory (q2_0 F) (q2_1 F) (q2_add F) (q2_mul F) (q2_sub F) (q2_neg F)
  (fun a b => q2_mul F a (q2_inv b)) q2_inv (@eq q2).
Proof.
  constructor; [apply q2_ring| |reflexivity|apply q2_inv_l].
  intros H. apply (f_equal c0) in H. cbn in H. apply (k1_neq0 F H).
Qed.
Definition Q2Fld : Fld := mkFld q2 _ _ _ _ _ _ _ _ (q2_eqb F) q2_theory q2_eqb_eq.
End Q2.

(** Generic cubic extension of a field by a cube root of [x]. *)
Section Cubic.
Variable K : Fld.
Local Open Scope fld_scope.
Add Field kf : (kth K).
Variable xi : K.
Hypothesis NC : forall t : K, t * t * t <> xi.
Definition cnorm (a b c : K) : K :=
  xi * (b * (b * b - a * c) + c * (xi * (c * c) - a * b)) + a * (a * a - xi * (b * c)).
Lemma cnorm_mul a b c d e f :
  cnorm (a * d + xi * (b * f + c * e)) (a * e + b * d + xi * (c * f)) (a * f + b * e + c * d) = cnorm a b c * cnorm d e f.
Proof. unfold cnorm. ring. Qed.
Lemma cnorm_lin a b : cnorm a b 0 = 0 -> a = 0 /\ b = 0.
Proof.
  intros H. destruct (kdec K b 0) as [->|N].
  - split; [|reflexivity]. apply ksq_eq0. destruct (kdec K a 0) as [->|Na]; [ring|].
    exfalso. assert (E : a * (a * a) = 0) by (rewrite <- H; unfold cnorm; ring).
    apply kmul_eq0 in E as [E|E]; [contradiction|]. apply ksq_eq0 in E. contradiction.
  - exfalso. apply (NC (- a / b)).
    transitivity ((xi * (b * b * b) - (a * a * a + xi * (b * b * b))) / (b * b * b)); [field; exact N|].
    replace (a * a * a + xi * (b * b * b)) with (cnorm a b 0) by (unfold cnorm; ring).
    rewrite H. field. exact N.
Qed.
Lemma cnorm_zero a b c : cnorm a b c = 0 -> a = 0 /\ b = 0 /\ c = 0.
Proof.
  intros H. destruct (kdec K c 0) as [->|N].
  - apply cnorm_lin in H. tauto.
  - exfalso.
    set (p := b / c). set (s := a / c).
    assert (Hb : b = p * c) by (unfold p; field; exact N).
    assert (Ha : a = s * c) by (unfold s; field; exact N).
    assert (H1 : cnorm s p 1 = 0).
    { assert (E : (c * c * c) * cnorm s p 1 = 0) by (rewrite <- H, Ha, Hb; unfold cnorm; ring).
      apply kmul_eq0 in E as [E|E]; [|exact E]. apply kmul_eq0 in E as [E|E]; [|contradiction]. apply ksq_eq0 in E. contradiction. }
    clearbody p s.
    assert (H2 : cnorm (xi - p * s) (s - p * p) 0 = 0).
    { transitivity (cnorm s p 1 * cnorm (- p) 1 0); [|rewrite H1; ring]. rewrite <- cnorm_mul. f_equal; ring. }
    apply cnorm_lin in H2 as [E1 E2]. apply (proj1 (ksub_eq0 K _ _)) in E1, E2. apply (NC p). rewrite E1, E2. ring.
Qed.
End Cubic.

Section Q6.
Variable F : Fld.
Notation q2 := (q2 F). Notation q6 := (q6 F). Notation q12 := (q12 F).
Add Ring q2ring : (q2_ring F).
Lemma q6_eq (a b : q6) : d0 a = d0 b -> d1 a = d1 b -> d2 a = d2 b -> a = b.
Proof. destruct a, b; cbn; congruence. Qed.
Definition xi := q2_xi F.
Ltac q6u := cbn [d0 d1 d2 q6_add q6_mul q6_sub q6_neg q6_sq q6_dbl q6_0 q6_1 q6_nonres q6_mul_by_1 q6_mul_by_01];
  rewrite ?q2_nonres_mul, ?q2_sq_mul, ?q2_dbl_add; fold xi; generalize xi.
Ltac q6r := repeat intros []; apply q6_eq; q6u; intros; ring.
Lemma q6_ring : ring_theory (q6_0 F) (q6_1 F) (q6_add F) (q6_mul F) (q6_sub F) (q6_neg F) (@eq q6).
Proof. constructor; q6r. Qed.
Lemma q6_sq_mul a : q6_sq F a = q6_mul F a a. Proof. revert a; q6r. Qed.
Lemma q6_dbl_add a : q6_dbl F a = q6_add F a a. Proof. revert a; q6r. Qed.
Definition q6_v : q6 := Q6 (q2_0 F) (q2_1 F) (q2_0 F).
Lemma q6_nonres_mul a : q6_nonres F a = q6_mul F q6_v a. Proof. unfold q6_v. revert a; q6r. Qed.
Lemma q6_eqb_eq a b : q6_eqb F a b = true <-> a = b.
Proof. unfold q6_eqb. rewrite !andb_true_iff, !q2_eqb_eq. split; [intros [[]]; apply q6_eq; assumption|intros ->; auto]. Qed.
Lemma q6_is0_eq a : q6_is0 F a = true <-> a = q6_0 F.
Proof. unfold q6_is0. rewrite !andb_true_iff, !q2_is0_eq. split; [intros [[]]; apply q6_eq; assumption|intros ->; auto]. Qed.
Lemma q6_mul_by_1_spec a b : q6_mul_by_1 F a b = q6_mul F a (Q6 (q2_0 F) b (q2_0 F)).
Proof. revert a b. intros [x y z] b. apply q6_eq; q6u; intros; ring. Qed.
Lemma q6_mul_by_01_spec a b c : q6_mul_by_01 F a b c = q6_mul F a (Q6 b c (q2_0 F)).
Proof. revert a b c. intros [x y z] b c. apply q6_eq; q6u; intros; ring. Qed.
Lemma q6_mul_coords a b : q6_mul F a b =
  Q6 (q2_add F (q2_mul F (d0 a) (d0 b)) (q2_mul F xi (q2_add F (q2_mul F (d1 a) (d2 b)) (q2_mul F (d2 a) (d1 b)))))
     (q2_add F (q2_add F (q2_mul F (d0 a) (d1 b)) (q2_mul F (d1 a) (d0 b))) (q2_mul F xi (q2_mul F (d2 a) (d2 b))))
     (q2_add F (q2_add F (q2_mul F (d0 a) (d2 b)) (q2_mul F (d1 a) (d1 b))) (q2_mul F (d2 a) (d0 b))).
Proof. apply q6_eq; q6u; intros; ring. Qed.

Hypothesis AN : anisotropic F.
Let K := Q2Fld F AN.
Hypothesis NC : forall t : q2, q2_mul F (q2_mul F t t) t <> xi.
Definition q6_adj (a : q6) : q6 := Q6
  (q2_sub F (q2_sq F (d0 a)) (q2_nonres F (q2_mul F (d1 a) (d2 a))))
  (q2_sub F (q2_nonres F (q2_sq F (d2 a))) (q2_mul F (d0 a) (d1 a)))
  (q2_sub F (q2_sq F (d1 a)) (q2_mul F (d0 a) (d2 a))).
Definition q6_norm (a : q6) : q2 := 
  q2_add F (q2_nonres F (q2_add F (q2_mul F (d1 a) (d2 (q6_adj a))) (q2_mul F (d2 a) (d1 (q6_adj a))))) (q2_mul F (d0 a) (d0 (q6_adj a))).
Lemma q6_norm_cnorm a : q6_norm a = cnorm K xi (d0 a) (d1 a) (d2 a).
Proof.
  change (q6_norm a = q2_add F (q2_mul F xi (q2_add F (q2_mul F (d1 a) (q2_sub F (q2_mul F (d1 a) (d1 a)) (q2_mul F (d0 a) (d2 a))))
     (q2_mul F (d2 a) (q2_sub F (q2_mul F xi (q2_mul F (d2 a) (d2 a))) (q2_mul F (d0 a) (d1 a))))))
     (q2_mul F (d0 a) (q2_sub F (q2_mul F (d0 a) (d0 a)) (q2_mul F xi (q2_mul F (d1 a) (d2 a)))))).
  unfold q6_norm, q6_adj. cbn [d0 d1 d2]. rewrite !q2_nonres_mul, !q2_sq_mul. fold xi. reflexivity.
Qed.
Lemma q6_norm_zero a : q6_norm a = q2_0 F -> a = q6_0 F.
Proof.
  rewrite q6_norm_cnorm. intros H. apply (cnorm_zero K xi NC) in H as (A & C & D). apply q6_eq; assumption.
Qed.
Lemma q6_norm_mul a b : q6_norm (q6_mul F a b) = q2_mul F (q6_norm a) (q6_norm b).
Proof. rewrite !q6_norm_cnorm, q6_mul_coords. cbn [d0 d1 d2]. exact (cnorm_mul K xi _ _ _ _ _ _). Qed.
Lemma q6_norm_v : q6_norm q6_v = xi.
Proof. unfold q6_norm, q6_adj, q6_v. cbn [d0 d1 d2]. rewrite !q2_nonres_mul, !q2_sq_mul. fold xi. ring. Qed.
Definition q6_inv (a : q6) : q6 := let t := q2_inv F (q6_norm a) in 
  Q6 (q2_mul F t (d0 (q6_adj a))) (q2_mul F t (d1 (q6_adj a))) (q2_mul F t (d2 (q6_adj a))).
Lemma q6_inv_l a : a <> q6_0 F -> q6_mul F (q6_inv a) a = q6_1 F.
Proof.
  intros N. assert (NN : q6_norm a <> q2_0 F) by (intros H; apply N, q6_norm_zero, H).
  pose proof (q2_inv_l F AN _ NN) as E. unfold q6_inv. set (t := q2_inv F _) in *. clearbody t.
  rewrite q6_mul_coords. unfold q6_norm, q6_adj in *. cbn [d0 d1 d2] in *. rewrite !q2_nonres_mul, !q2_sq_mul in *. fold xi in *.
  apply q6_eq; cbn [d0 d1 d2 q6_1]; [rewrite <- E|..]; ring.
Qed.
Lemma q6_invert_spec a : (a = q6_0 F -> q6_invert F a = None) /\ (a <> q6_0 F -> q6_invert F a = Some (q6_inv a)).
Proof.
  change (q6_invert F a) with (match q2_invert F (q6_norm a) with
    | Some t => Some (Q6 (q2_mul F t (d0 (q6_adj a))) (q2_mul F t (d1 (q6_adj a))) (q2_mul F t (d2 (q6_adj a)))) | None => None end).
  destruct (q2_invert_spec F AN (q6_norm a)) as [A C]. split; intros H.
  - rewrite A; [reflexivity|]. subst a. unfold q6_norm, q6_adj. cbn [d0 d1 d2 q6_0]. rewrite !q2_nonres_mul, !q2_sq_mul. ring.
  - rewrite C; [reflexivity|]. intros E. apply H, q6_norm_zero, E.
Qed.
Lemma q6_theory : field_theory (q6_0 F) (q6_1 F) (q6_add F) (q6_mul F) (q6_sub F) (q6_neg F)
  (fun a b => q6_mul F a (q6_inv b)) q6_inv (@eq q6).
Proof.
  constructor; [apply q6_ring| |reflexivity|apply q6_inv_l].
  intros H. apply (f_equal (fun x => c0 (d0 x))) in H. cbn in H. apply (k1_neq0 F H).
Qed.
Definition Q6Fld : Fld := mkFld q6 _ _ _ _ _ _ _ _ (q6_eqb F) q6_theory q6_eqb_eq.
End Q6.

Section Q12.
Variable F : Fld.
Notation q2 := (q2 F). Notation q6 := (q6 F). Notation q12 := (q12 F).
Add Ring q6ring : (q6_ring F).
Lemma q12_eq (a b : q12) : e0 a = e0 b -> e1 a = e1 b -> a = b.
Proof. destruct a, b; cbn; congruence. Qed.
Definition vv := q6_v F.
Ltac q12u := cbn [e0 e1 q12_add q12_mul q12_sub q12_neg q12_sq q12_dbl q12_0 q12_1];
  rewrite ?q6_nonres_mul, ?q6_sq_mul, ?q6_dbl_add; fold vv; generalize vv.
Ltac q12r := repeat intros []; apply q12_eq; q12u; intros; ring.
Lemma q12_ring : ring_theory (q12_0 F) (q12_1 F) (q12_add F) (q12_mul F) (q12_sub F) (q12_neg F) (@eq q12).
Proof. constructor; q12r. Qed.
Lemma q12_sq_mul a : q12_sq F a = q12_mul F a a. Proof. revert a; q12r. Qed.
Lemma q12_dbl_add a : q12_dbl F a = q12_add F a a. Proof. revert a; q12r. Qed.
Lemma q12_eqb_eq a b : q12_eqb F a b = true <-> a = b.
Proof. unfold q12_eqb. rewrite !andb_true_iff, !q6_eqb_eq. split; [intros []; apply q12_eq; assumption|intros ->; auto]. Qed.
Lemma q12_is0_eq a : q12_is0 F a = true <-> a = q12_0 F.
Proof. unfold q12_is0. rewrite !andb_true_iff, !q6_is0_eq. split; [intros []; apply q12_eq; assumption|intros ->; auto]. Qed.
Lemma q12_mul_coords a b : q12_mul F a b =
  Q12 (q6_add F (q6_mul F (e0 a) (e0 b)) (q6_mul F vv (q6_mul F (e1 a) (e1 b))))
      (q6_add F (q6_mul F (e0 a) (e1 b)) (q6_mul F (e1 a) (e0 b))).
Proof. apply q12_eq; q12u; intros; ring. Qed.
Lemma q6_scale_spec (a : q6) (b : q2) : Q6 (q2_mul F (d0 a) b) (q2_mul F (d1 a) b) (q2_mul F (d2 a) b) = q6_mul F a (Q6 b (q2_0 F) (q2_0 F)).
Proof.
  rewrite q6_mul_coords. Add Ring q2ring' : (q2_ring F). apply q6_eq; cbn [d0 d1 d2]; ring.
Qed.
Lemma q12_mul_by_034_spec a b0 b3 b4 :
  q12_mul_by_034 F a b0 b3 b4 = q12_mul F a (Q12 (Q6 b0 (q2_0 F) (q2_0 F)) (Q6 b3 b4 (q2_0 F))).
Proof.
  unfold q12_mul_by_034. rewrite !q6_mul_by_01_spec, !q6_scale_spec, !q6_nonres_mul. fold vv.
  rewrite q12_mul_coords. cbn [e0 e1].
  replace (Q6 (q2_add F b0 b3) b4 (q2_0 F)) with (q6_add F (Q6 b0 (q2_0 F) (q2_0 F)) (Q6 b3 b4 (q2_0 F)));
   [|apply q6_eq; cbn [d0 d1 d2 q6_add]; ring].
  apply q12_eq; cbn [e0 e1]; generalize vv; intros; ring.
Qed.

Hypothesis AN : anisotropic F.
Hypothesis NC : forall t : q2, q2_mul F (q2_mul F t t) t <> xi F.
Let K := Q6Fld F AN NC.
Hypothesis NS : forall t : q6, q6_mul F t t <> vv.
Definition q12_norm (a : q12) : q6 := q6_sub F (q6_sq F (e0 a)) (q6_nonres F (q6_sq F (e1 a))).
Lemma q12_norm_zero a : q12_norm a = q6_0 F -> a = q12_0 F.
Proof.
  unfold q12_norm. rewrite q6_nonres_mul, !q6_sq_mul. fold vv. intros H.
  Add Field k6f : (kth K).
  assert (H' : (@ksub K (@kmul K (e0 a) (e0 a)) (@kmul K (vv : K) (@kmul K (e1 a) (e1 a)))) = (@k0 K)) by exact H. clear H.
  destruct (kdec K (e1 a) (@k0 K)) as [E|N].
  - rewrite E in H'. assert (E0 : @kmul K (e0 a) (e0 a) = (@k0 K)) by (rewrite <- H'; ring).
    apply (ksq_eq0 K) in E0. apply q12_eq; assumption.
  - exfalso. apply (NS (@kdiv K (e0 a) (e1 a))).
    change (@kmul K (@kdiv K (e0 a) (e1 a)) (@kdiv K (e0 a) (e1 a)) = (vv : K)).
    transitivity (@kdiv K (@kmul K (e0 a) (e0 a)) (@kmul K (e1 a) (e1 a))); [field; exact N|].
    apply (proj1 (ksub_eq0 K _ _)) in H'. rewrite H'. field. exact N.
Qed.
Definition q12_inv (a : q12) : q12 := let t := q6_inv F (q12_norm a) in Q12 (q6_mul F (e0 a) t) (q6_mul F (e1 a) (q6_neg F t)).
Lemma q12_inv_l a : a <> q12_0 F -> q12_mul F (q12_inv a) a = q12_1 F.
Proof.
  intros N. assert (NN : q12_norm a <> q6_0 F) by (intros H; apply N, q12_norm_zero, H).
  pose proof (q6_inv_l F AN NC _ NN) as E. unfold q12_inv. set (t := q6_inv F _) in *. clearbody t.
  rewrite q12_mul_coords. unfold q12_norm in E. rewrite q6_nonres_mul, !q6_sq_mul in E. fold vv in E. revert E. generalize vv. intros v E.
  apply q12_eq; cbn [e0 e1 q12_1]; [rewrite <- E|]; ring.
Qed.
Lemma q12_invert_spec a : (a = q12_0 F -> q12_invert F a = None) /\ (a <> q12_0 F -> q12_invert F a = Some (q12_inv a)).
Proof.
  unfold q12_invert. fold (q12_norm a). destruct (q6_invert_spec F AN NC (q12_norm a)) as [A C]. split; intros H.
  - rewrite A; [reflexivity|]. subst a. unfold q12_norm. rewrite q6_nonres_mul, !q6_sq_mul. cbn [e0 e1 q12_0]. ring.
  - rewrite C; [reflexivity|]. intros E. apply H, q12_norm_zero, E.
Qed.
Lemma q12_theory : field_theory (q12_0 F) (q12_1 F) (q12_add F) (q12_mul F) (q12_sub F) (q12_neg F)
  (fun a b => q12_mul F a (q12_inv b)) q12_inv (@eq q12).
Proof.
  constructor; [apply q12_ring| |reflexivity|apply q12_inv_l].
  intros H. apply (f_equal (fun x => c0 (d0 (e0 x)))) in H. cbn in H. apply (k1_neq0 F H).
Qed.
Definition Q12Fld : Fld := mkFld q12 _ _ _ _ _ _ _ _ (q12_eqb F) q12_theory q12_eqb_eq.
End Q12.
