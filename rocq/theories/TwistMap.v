(** Point maps (x, y) -> (h x * w^2, h y * w^3) along a field homomorphism [h]. *)
From Coq Require Import ZArith List Bool Field Lia.
From Verif Require Import Algebra CurveSpec CurveGroup LineAlg LineVal.
Import ListNotations.
Local Open Scope fld_scope.

Section Tw.
Variables E K : Fld.
Add Field twE : (kth E). Add Field twK : (kth K).
Variables (h : E -> K) (w : K) (b : E) (b' : K).
Hypothesis h_add : forall a c, h (a + c) = h a + h c.
Hypothesis h_mul : forall a c, h (a * c) = h a * h c.
Hypothesis h_1 : h 1 = 1.
Hypothesis W0 : w <> 0.
Hypothesis Hb : b' = h b * (w * w * w * w * w * w).
Hypothesis two : (1 + 1 : E) <> 0.
Hypothesis three : (1 + 1 + 1 : E) <> 0.
Hypothesis bnz : b <> 0.
Lemma h_0 : h 0 = 0.
Proof.
  assert (H : h 0 = h 0 + h 0) by (rewrite <- h_add; f_equal; ring).
  transitivity (h 0 + h 0 - h 0); [ring|]. rewrite <- H. ring.
Qed.
Lemma h_opp a : h (- a) = - h a.
Proof.
  assert (H : h a + h (- a) = 0) by (rewrite <- h_add, <- h_0; f_equal; ring).
  transitivity (h a + h (- a) - h a); [ring|]. rewrite H. ring.
Qed.
Lemma h_sub a c : h (a - c) = h a - h c.
Proof. replace (a - c) with (a + - c) by ring. rewrite h_add, h_opp. ring. Qed.
Lemma h_neq0 a : a <> 0 -> h a <> 0.
Proof.
  intros N H. apply (k1_neq0 K). rewrite <- h_1. replace (1 : E) with (a * (1 / a)) by (field; exact N). rewrite h_mul, H. ring.
Qed.
Lemma h_inj a c : h a = h c -> a = c.
Proof. intros H. destruct (kdec E (a - c) 0) as [D|D]; [apply ksub_eq0, D|]. exfalso. apply (h_neq0 _ D). rewrite h_sub, H. ring. Qed.
Lemma h_two : (1 + 1 : K) <> 0. Proof. rewrite <- h_1, <- h_add. apply h_neq0, two. Qed.
Lemma h_three : (1 + 1 + 1 : K) <> 0. Proof. rewrite <- h_1, <- !h_add. apply h_neq0, three. Qed.
Lemma w6 : w * w * w * w * w * w <> 0. Proof. repeat apply kmul_neq0; exact W0. Qed.
Lemma h_bnz : b' <> 0. Proof. rewrite Hb. apply kmul_neq0; [apply h_neq0, bnz|apply w6]. Qed.

Definition tx (x : E) : K := h x * w * w.
Definition ty (y : E) : K := h y * w * w * w.
Definition tw (P : point E) : point K := match P with Inf => Inf | Pt x y => Pt (tx x) (ty y) end.
Lemma tx_inj x x' : tx x = tx x' -> x = x'.
Proof.
  unfold tx. intros H. apply h_inj. apply (kmul_cancel_l K (w * w)); [apply kmul_neq0; exact W0|].
  transitivity (h x * w * w); [ring|]. rewrite H. ring.
Qed.
Lemma ty_inj x x' : ty x = ty x' -> x = x'.
Proof.
  unfold ty. intros H. apply h_inj. apply (kmul_cancel_l K (w * w * w)); [repeat apply kmul_neq0; exact W0|].
  transitivity (h x * w * w * w); [ring|]. rewrite H. ring.
Qed.
Lemma tw_inj P Q : tw P = tw Q -> P = Q.
Proof.
  destruct P as [|x y], Q as [|x' y']; cbn; intros H; [reflexivity|discriminate H|discriminate H|].
  injection H as HX HY. apply tx_inj in HX. apply ty_inj in HY. subst. reflexivity.
Qed.
Lemma tw_on P : on_curve b P -> on_curve b' (tw P).
Proof.
  destruct P as [|x y]; [auto|]. cbn. intros H. apply (f_equal h) in H. rewrite !h_mul, h_add, !h_mul in H. rewrite Hb. unfold tx, ty.
  transitivity (h y * h y * (w * w * w * w * w * w)); [ring|]. rewrite H. ring.
Qed.
Lemma tw_neg P : tw (pt_neg P) = pt_neg (tw P).
Proof. destruct P as [|x y]; [reflexivity|]. cbn. f_equal. unfold ty. rewrite h_opp. ring. Qed.
Lemma tw_lin x1 y1 x2 y2 l : lin E x1 y1 x2 y2 l -> lin K (tx x1) (ty y1) (tx x2) (ty y2) (h l * w).
Proof.
  intros [A B]. apply (f_equal h) in A, B. rewrite h_sub, h_mul, h_sub in A. rewrite h_mul, !h_add, !h_mul in B. unfold tx, ty. split.
  - transitivity ((h y1 - h y2) * (w * w * w)); [ring|]. rewrite A. ring.
  - transitivity (h l * (h y1 + h y2) * (w * w * w * w)); [ring|]. rewrite B. ring.
Qed.
Lemma tw_add P Q : on_curve b P -> on_curve b Q -> tw (pt_add P Q) = pt_add (tw P) (tw Q).
Proof.
  intros HP HQ. destruct (add_cases2 E b two three bnz P Q HP HQ) as [->|[->|[->|(x1 & y1 & x2 & y2 & l & -> & -> & L & ->)]]].
  - reflexivity.
  - cbn [tw]. rewrite !add_inf_r. reflexivity.
  - rewrite tw_neg, !add_neg. reflexivity.
  - pose proof (add_lin2 K b' h_two h_three h_bnz _ _ _ _ _ (tw_on _ HP) (tw_on _ HQ) (tw_lin _ _ _ _ _ L)) as A. cbn [tw] in A |- *. rewrite A.
    f_equal; unfold tx, ty; rewrite ?h_sub, ?h_mul, ?h_sub, ?h_mul; ring.
Qed.
(** Without scaling, line values are mapped to line values. *)
Lemma tw_lval P Q R : w = 1 -> on_curve b P -> on_curve b Q -> lval (tw P) (tw Q) (tw R) = h (lval P Q R).
Proof.
  intros W1 HP HQ. destruct R as [|x y]; [cbn [tw]; rewrite !lval_inf, h_1; reflexivity|].
  destruct (add_cases2 E b two three bnz P Q HP HQ) as [->|[->|[->|(x1 & y1 & x2 & y2 & l & -> & -> & L & _)]]].
  - cbn [tw]. rewrite !lval_inf_l, h_1. reflexivity.
  - cbn [tw]. rewrite !lval_inf_r, h_1. reflexivity.
  - rewrite tw_neg, !lval_opp, h_1. reflexivity.
  - rewrite (lval_lin E b two three bnz _ _ _ _ _ _ _ HP L). cbn [tw].
    rewrite (lval_lin K b' h_two h_three h_bnz _ _ _ _ _ _ _ (tw_on _ HP) (tw_lin _ _ _ _ _ L)).
    rewrite !h_sub, h_mul, h_sub. unfold tx, ty. rewrite W1. ring.
Qed.
End Tw.
