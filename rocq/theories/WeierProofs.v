(** The Weierstrass operations compute the chord-and-tangent law. *)
From Coq Require Import ZArith List Bool Field Lia.
From Verif Require Import LimbModel FieldModel Algebra CurveSpec CurveGroup WeierModel.
Import ListNotations.
Local Open Scope fld_scope.

Section Weier.
Variable K : Fld.
Add Field wfield : (kth K).
Variables b b3 : K.
Hypothesis Hb3 : b3 = b + b + b.
Hypothesis two : (1 + 1 : K) <> 0.
Hypothesis three : (1 + 1 + 1 : K) <> 0.
Hypothesis bnz : b <> 0.
Notation on := (on_curve b).

(** The point a representation stands for. *)
Definition aff_pt (p : aff K) : point K := if ainf p then Inf else Pt (ax p) (ay p).
Definition proj_pt (p : proj K) : point K := if keqb (jz p) 0 then Inf else Pt (jx p / jz p) (jy p / jz p).

Ltac nz := repeat split; repeat first [assumption | apply kmul_neq0].
Lemma chord_eq (x1 y1 x2 y2 : K) : x1 <> x2 -> pt_add (Pt x1 y1) (Pt x2 y2) =
  let l := (y1 - y2) / (x1 - x2) in let x3 := l * l - x1 - x2 in Pt x3 (l * (x1 - x3) - y1).
Proof. intros N. cbn. destruct (keqb_spec K x1 x2); [contradiction|]. reflexivity. Qed.
Lemma dbl_eq (x y : K) : y <> 0 -> pt_add (Pt x y) (Pt x y) =
  let l := (x * x + x * x + x * x) / (y + y) in let x3 := l * l - x - x in Pt x3 (l * (x - x3) - y).
Proof.
  intros N. cbn. rewrite keqb_refl. destruct (keqb_spec K y (- y)) as [E|]; [|reflexivity].
  exfalso. apply N, (dbl0 K two). rewrite E at 1. ring.
Qed.
Lemma dbl_eq0 (x y : K) : y = 0 -> pt_add (Pt x y) (Pt x y) = Inf.
Proof. intros ->. cbn. rewrite keqb_refl. destruct (keqb_spec K 0 (- 0)) as [E|E]; [reflexivity|]. exfalso. apply E. ring. Qed.
Lemma proj_pt_fin x y z : z <> 0 -> proj_pt (Prj x y z) = Pt (x / z) (y / z).
Proof. intros N. unfold proj_pt. cbn [jx jy jz]. destruct (keqb_spec K z 0); [contradiction|reflexivity]. Qed.
Lemma proj_pt_inf x y z : z = 0 -> proj_pt (Prj x y z) = Inf.
Proof. intros E. unfold proj_pt. cbn [jx jy jz]. destruct (keqb_spec K z 0); [reflexivity|contradiction]. Qed.
Lemma identity_pt : proj_pt (proj_identity K) = Inf. Proof. apply proj_pt_inf. reflexivity. Qed.
Lemma kneq_div (x0 z0 x1 z1 : K) : z0 <> 0 -> z1 <> 0 -> (x0 / z0 = x1 / z1 <-> x0 * z1 = x1 * z0).
Proof.
  intros A B. split; intros E.
  - transitivity (x0 / z0 * (z0 * z1)); [field; assumption|]. rewrite E. field. assumption.
  - transitivity (x0 * z1 / (z0 * z1)); [field; nz|]. rewrite E. field. nz.
Qed.
Lemma eight (y : K) : y <> 0 -> (1 + 1) * ((1 + 1) * ((1 + 1) * y)) <> 0. Proof. intros. nz. Qed.
Lemma pt_ext (x y x' y' : K) : x - x' = 0 -> y - y' = 0 -> Pt x y = Pt x' y'.
Proof. intros A B. apply (proj1 (ksub_eq0 K _ _)) in A, B. subst. reflexivity. Qed.

Lemma double_proj_ok p : on (proj_pt p) -> proj_pt (double_projective_point K b3 p) = pt_add (proj_pt p) (proj_pt p).
Proof.
  destruct p as [x y z]. intros H. destruct (kdec K z 0) as [Z|Z].
  - rewrite (proj_pt_inf x y z Z). apply proj_pt_inf. cbn [jx jy jz]. rewrite Z. unfold kdbl, ksq. ring.
  - rewrite (proj_pt_fin x y z Z) in H |- *. cbn in H.
    assert (B : b = (y * y * z - x * x * x) / (z * z * z)).
    { transitivity (y / z * (y / z) - x / z * (x / z) * (x / z)); [rewrite H; ring|field; exact Z]. }
    destruct (kdec K y 0) as [Y|Y].
    + rewrite dbl_eq0 by (rewrite Y; field; exact Z). apply proj_pt_inf. cbn [jx jy jz]. rewrite Y. unfold kdbl, ksq. ring.
    + assert (Y' : y / z <> 0). { intros E. apply Y. transitivity (y / z * z); [field; exact Z|rewrite E; ring]. }
      assert (Y2 : y + y <> 0) by (intros E; apply (dbl0 K two) in E; contradiction).
      rewrite (dbl_eq _ _ Y'). cbv zeta. unfold double_projective_point. cbn [jx jy jz]. cbv zeta.
      rewrite proj_pt_fin.
      2:{ intros E. apply (eight (y * y * y * z) ltac:(nz)). rewrite <- E. unfold kdbl, ksq. ring. }
      assert (E8 : y * z * kdbl (kdbl (kdbl (ksq y))) = (1 + 1) * ((1 + 1) * ((1 + 1) * (y * y * y * z)))) by (unfold kdbl, ksq; ring).
      rewrite E8, Hb3, B. unfold kdbl, ksq. apply pt_ext; field; nz.
Qed.
Lemma double_aff_ok p : ainf p = false -> on (aff_pt p) -> proj_pt (double_affine_point K b3 p) = pt_add (aff_pt p) (aff_pt p).
Proof.
  destruct p as [x y i]. cbn [ainf]. intros -> H. change (aff_pt (Aff x y false)) with (Pt x y) in *.
  assert (P1 : proj_pt (Prj x y 1) = Pt x y).
  { rewrite proj_pt_fin by apply k1_neq0. pose proof (k1_neq0 K). apply pt_ext; field; assumption. }
  rewrite <- P1. rewrite <- double_proj_ok by (rewrite P1; exact H). f_equal.
  unfold double_affine_point, double_projective_point. cbn [ax ay jx jy jz]. cbv zeta. unfold kdbl, ksq. f_equal; ring.
Qed.
Lemma to_extended_ok p : proj_pt (to_extended K p) = aff_pt p.
Proof.
  unfold to_extended, aff_is_identity, aff_pt. destruct (ainf p); [apply identity_pt|].
  rewrite proj_pt_fin by apply k1_neq0. pose proof (k1_neq0 K). apply pt_ext; field; assumption.
Qed.
Lemma to_affine_ok p : aff_pt (to_affine K p) = proj_pt p.
Proof.
  destruct p as [x y z]. unfold to_affine, kinvert, kis0, aff_pt, proj_pt. cbn [jx jy jz]. destruct (keqb_spec K z 0) as [E|N]; [reflexivity|].
  cbn [ainf ax ay]. apply pt_ext; field; assumption.
Qed.
Lemma on_proj x y z : z <> 0 -> on (Pt (x / z) (y / z)) -> y * y * z = x * x * x + b * z * z * z.
Proof.
  cbn. intros Z H. transitivity (y / z * (y / z) * (z * z * z)); [field; exact Z|]. rewrite H. field. exact Z.
Qed.
Lemma add_proj_ok p q : on (proj_pt p) -> on (proj_pt q) ->
  proj_pt (add_projective_point K b3 p q) = pt_add (proj_pt p) (proj_pt q).
Proof.
  destruct p as [x0 y0 z0], q as [x1 y1 z1]. intros H0 H1. unfold add_projective_point, proj_is_identity. cbn [jx jy jz].
  destruct (keqb_spec K z0 0) as [Z0|Z0]; [rewrite (proj_pt_inf x0 y0 z0 Z0); reflexivity|].
  destruct (keqb_spec K z1 0) as [Z1|Z1]; [rewrite (proj_pt_inf x1 y1 z1 Z1), add_inf_r; reflexivity|].
  rewrite (proj_pt_fin x0 y0 z0 Z0) in *. rewrite (proj_pt_fin x1 y1 z1 Z1) in *.
  destruct (keqb_spec K (x0 * z1) (x1 * z0)) as [EX|NX].
  - pose proof (proj2 (kneq_div x0 z0 x1 z1 Z0 Z1) EX) as EX'.
    destruct (keqb_spec K (y0 * z1) (y1 * z0)) as [EY|NY].
    + pose proof (proj2 (kneq_div y0 z0 y1 z1 Z0 Z1) EY) as EY'. rewrite <- EX', <- EY'.
      rewrite double_proj_ok; rewrite (proj_pt_fin x0 y0 z0 Z0); [reflexivity|exact H0].
    + rewrite identity_pt. rewrite <- EX' in *. destruct (same_x K b _ _ _ H1 H0) as [E|E].
      * exfalso. apply NY. apply (proj1 (kneq_div y0 z0 y1 z1 Z0 Z1)). congruence.
      * rewrite E, add_neg. reflexivity.
  - assert (NX' : x0 / z0 <> x1 / z1) by (intros E; apply NX, (proj1 (kneq_div x0 z0 x1 z1 Z0 Z1)), E).
    rewrite (chord_eq _ _ _ _ NX'). cbv zeta. pose proof (subn K _ _ NX) as D.
    rewrite proj_pt_fin by (unfold ksq; nz). unfold ksq. apply pt_ext; field; nz.
Qed.
Lemma add_mixed_ok p q : on (aff_pt p) -> on (proj_pt q) ->
  proj_pt (add_mixed_point K b3 p q) = pt_add (aff_pt p) (proj_pt q).
Proof.
  destruct p as [x2 y2 i], q as [x1 y1 z1]. intros H0 H1. unfold add_mixed_point, aff_is_identity, proj_is_identity. cbn [ainf ax ay jx jy jz].
  destruct i; [reflexivity|]. change (aff_pt (Aff x2 y2 false)) with (Pt x2 y2) in *.
  destruct (keqb_spec K z1 0) as [Z1|Z1]; [rewrite (proj_pt_inf x1 y1 z1 Z1), add_inf_r, to_extended_ok; reflexivity|].
  rewrite (proj_pt_fin x1 y1 z1 Z1) in *.
  assert (DIV : forall u v, u = v / z1 <-> u * z1 = v).
  { intros u v. split; [intros ->; field; exact Z1|intros <-; field; exact Z1]. }
  destruct (keqb_spec K (x2 * z1) x1) as [EX|NX].
  - pose proof (proj2 (DIV _ _) EX) as EX'.
    destruct (keqb_spec K (y2 * z1) y1) as [EY|NY].
    + pose proof (proj2 (DIV _ _) EY) as EY'. rewrite <- EX', <- EY'.
      exact (double_aff_ok (Aff x2 y2 false) eq_refl H0).
    + rewrite to_extended_ok. change (Inf = pt_add (Pt x2 y2) (Pt (x1 / z1) (y1 / z1))). rewrite <- EX' in *. destruct (same_x K b _ _ _ H1 H0) as [E|E].
      * exfalso. apply NY. apply (proj1 (DIV _ _)). congruence.
      * rewrite E, add_neg. reflexivity.
  - assert (NX' : x2 <> x1 / z1) by (intros E; apply NX, (proj1 (DIV _ _)), E).
    rewrite (chord_eq _ _ _ _ NX'). cbv zeta. pose proof (subn K _ _ NX) as D.
    rewrite proj_pt_fin by (unfold ksq; nz). unfold ksq, kdbl. apply pt_ext; field; nz.
Qed.
Lemma add_aff_ok p q : on (aff_pt p) -> on (aff_pt q) ->
  proj_pt (add_affine_point K b3 p q) = pt_add (aff_pt p) (aff_pt q).
Proof.
  destruct p as [x0 y0 i], q as [x1 y1 j]. intros H0 H1. unfold add_affine_point, aff_is_identity. cbn [ainf ax ay].
  destruct i; [apply to_extended_ok|]. change (aff_pt (Aff x0 y0 false)) with (Pt x0 y0) in *.
  destruct j; [rewrite to_extended_ok; reflexivity|]. change (aff_pt (Aff x1 y1 false)) with (Pt x1 y1) in *.
  destruct (keqb_spec K x0 x1) as [EX|NX].
  - subst x1. destruct (keqb_spec K y0 y1) as [EY|NY].
    + subst y1. exact (double_aff_ok (Aff x0 y0 false) eq_refl H0).
    + rewrite identity_pt. destruct (same_x K b _ _ _ H1 H0) as [E|E]; [exfalso; apply NY; congruence|]. rewrite E, add_neg. reflexivity.
  - rewrite (chord_eq _ _ _ _ NX). cbv zeta. pose proof (subn K _ _ NX) as D.
    rewrite proj_pt_fin by (unfold ksq; nz). unfold ksq. apply pt_ext; field; nz.
Qed.
Lemma neg_proj_ok p : proj_pt (proj_neg K p) = pt_neg (proj_pt p).
Proof.
  destruct p as [x y z]. unfold proj_neg, proj_pt. cbn [jx jy jz]. destruct (keqb_spec K z 0) as [Z|Z]; [reflexivity|].
  apply pt_ext; field; exact Z.
Qed.
Lemma neg_aff_ok p : aff_pt (aff_neg K p) = pt_neg (aff_pt p).
Proof. destruct p as [x y []]; reflexivity. Qed.
Lemma aff_eqb_ok p q : aff_eqb K p q = true <-> aff_pt p = aff_pt q.
Proof.
  destruct p as [x0 y0 i], q as [x1 y1 j]. unfold aff_eqb, aff_is_identity, aff_pt. cbn [ainf ax ay].
  destruct i, j; cbn [orb andb]; try (split; congruence).
  rewrite andb_true_iff, !keqb_eq. split; [intros [-> ->]; reflexivity|intros E; injection E; auto].
Qed.
Lemma proj_eqb_ok p q : proj_eqb K p q = true <-> proj_pt p = proj_pt q.
Proof.
  destruct p as [x0 y0 z0], q as [x1 y1 z1]. unfold proj_eqb, proj_is_identity, proj_pt. cbn [jx jy jz].
  destruct (keqb_spec K z0 0) as [Z0|Z0], (keqb_spec K z1 0) as [Z1|Z1]; cbn [orb andb]; try (split; congruence).
  rewrite andb_true_iff, !keqb_eq. rewrite <- !(kneq_div _ _ _ _ Z0 Z1).
  split; [intros [-> ->]; reflexivity|intros E; injection E; auto].
Qed.
Lemma aff_on_ok p : aff_is_on_curve K b p = true <-> on (aff_pt p).
Proof. destruct p as [x y []]; unfold aff_is_on_curve, aff_pt; cbn [ainf ax ay]; [cbn; tauto|]. rewrite keqb_eq. reflexivity. Qed.
Lemma proj_on_ok p : proj_is_on_curve K b p = true <-> on (proj_pt p).
Proof.
  destruct p as [x y z]; unfold proj_is_on_curve, proj_is_identity, proj_pt; cbn [jx jy jz].
  destruct (keqb_spec K z 0) as [Z|Z]; [cbn; tauto|]. rewrite keqb_eq. unfold ksq. split; intros H.
  - cbn. transitivity (y * y * z / (z * z * z)); [field; exact Z|]. rewrite H. field. exact Z.
  - rewrite (on_proj x y z Z H). ring.
Qed.
End Weier.
