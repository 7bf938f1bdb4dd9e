(** The addition formulas of the point gadget (zkstd/src/circuit/gadget/curve.rs:92-134) compute the
    chord-and-tangent law without case distinctions, on curves without a point of order two. *)
From Coq Require Import ZArith List Bool Lia Field.
From Verif Require Import Algebra CurveSpec CurveGroup WeierModel WeierProofs.
Import ListNotations.
Local Open Scope fld_scope.

Section Complete.
Variable K : Fld.
Add Field cafield : (kth K).
Variables b b3 : K.
Hypothesis Hb3 : b3 = b + b + b.
Hypothesis two : (1 + 1 : K) <> 0.
Hypothesis three : (1 + 1 + 1 : K) <> 0.
Hypothesis bnz : b <> 0.
Hypothesis no2 : forall x : K, x * x * x + b <> 0.
Notation on := (on_curve b).

(** Projective points of the curve: the homogeneous equation, not all coordinates zero. *)
Definition on_proj_curve (p : proj K) : Prop :=
  jy p * jy p * jz p = jx p * jx p * jx p + b * jz p * jz p * jz p /\ ~ (jx p = 0 /\ jy p = 0 /\ jz p = 0).
(** What the gadget's sequence of products and sums amounts to. *)
Definition complete_add (p q : proj K) : proj K :=
  let x1 := jx p in let y1 := jy p in let z1 := jz p in let x2 := jx q in let y2 := jy q in let z2 := jz q in
  Prj ((x1 * y2 + x2 * y1) * (y1 * y2 - b3 * (z1 * z2)) - b3 * ((y1 * z2 + y2 * z1) * (x1 * z2 + x2 * z1)))
      ((y1 * y2 + b3 * (z1 * z2)) * (y1 * y2 - b3 * (z1 * z2)) + b3 * (x1 * x2 + x1 * x2 + x1 * x2) * (x1 * z2 + x2 * z1))
      ((y1 * z2 + y2 * z1) * (y1 * y2 + b3 * (z1 * z2)) + (x1 * x2 + x1 * x2 + x1 * x2) * (x1 * y2 + x2 * y1)).
Definition pscale (l : K) (p : proj K) : proj K := Prj (l * jx p) (l * jy p) (l * jz p).
Lemma proj_ext (x y z x' y' z' : K) : x = x' -> y = y' -> z = z' -> Prj x y z = Prj x' y' z'. Proof. congruence. Qed.
Lemma complete_scale l m p q : complete_add (pscale l p) (pscale m q) = pscale (l * m * (l * m)) (complete_add p q).
Proof. destruct p as [x1 y1 z1], q as [x2 y2 z2]. unfold complete_add, pscale. cbn [jx jy jz]. apply proj_ext; ring. Qed.
Lemma pscale_pt l p : l <> 0 -> proj_pt K (pscale l p) = proj_pt K p.
Proof.
  intros L. destruct p as [x y z]. unfold pscale. cbn [jx jy jz]. destruct (kdec K z 0) as [Z|Z].
  - rewrite !proj_pt_inf; [reflexivity|exact Z|rewrite Z; ring].
  - rewrite !proj_pt_fin; [|exact Z|apply kmul_neq0; assumption]. apply pt_ext; field; split; assumption.
Qed.
Lemma pscale_on l p : l <> 0 -> on_proj_curve p -> on_proj_curve (pscale l p).
Proof.
  intros L [E N]. destruct p as [x y z]. unfold on_proj_curve, pscale in *. cbn [jx jy jz] in *. split.
  - transitivity (l * l * l * (y * y * z)); [ring|rewrite E; ring].
  - intros (X & Y & Z). apply N. split; [|split]; [destruct (kmul_eq0 K _ _ X)|destruct (kmul_eq0 K _ _ Y)|destruct (kmul_eq0 K _ _ Z)]; contradiction || assumption.
Qed.
Lemma on_proj_cases p : on_proj_curve p -> exists l, l <> 0 /\ (p = pscale l (Prj 0 1 0) \/ exists x y, on (Pt x y) /\ p = pscale l (Prj x y 1)).
Proof.
  destruct p as [x y z]. intros [E N]. unfold on_proj_curve, pscale in *. cbn [jx jy jz] in *. destruct (kdec K z 0) as [Z|Z].
  - subst z. assert (X : x = 0).
    { assert (E' : x * x * x = 0) by (transitivity (x * x * x + b * 0 * 0 * 0); [ring|rewrite <- E; ring]).
      apply (kmul_eq0 K) in E' as [E'|E']; [apply (kmul_eq0 K) in E' as [E'|E']|]; exact E'. }
    subst x. exists y. split; [intros ->; apply N; repeat split; reflexivity|]. left. apply proj_ext; ring.
  - exists z. split; [exact Z|]. right. exists (x / z), (y / z). split; [|apply proj_ext; field; exact Z].
    cbn. transitivity (y * y * z / (z * z * z)); [field; exact Z|]. rewrite E. field. exact Z.
Qed.
Lemma fin_on x y : on (Pt x y) -> on_proj_curve (Prj x y 1).
Proof. cbn. intros H. split; cbn [jx jy jz]; [|intros (_ & _ & Z); apply (k1_neq0 K Z)]. transitivity (y * y); [ring|rewrite H; ring]. Qed.
Lemma fin_pt x y : proj_pt K (Prj x y 1) = Pt x y.
Proof. rewrite proj_pt_fin by apply k1_neq0. apply pt_ext; field; apply k1_neq0. Qed.
Lemma inf_pt : proj_pt K (Prj 0 1 0) = Inf. Proof. apply proj_pt_inf. reflexivity. Qed.
Lemma inf_on : on_proj_curve (Prj 0 1 0).
Proof. split; cbn [jx jy jz]; [ring|]. intros (_ & Y & _). apply (k1_neq0 K Y). Qed.
Lemma y_nz x y : on (Pt x y) -> y <> 0.
Proof. cbn. intros H Y. subst y. apply (no2 x). rewrite <- H. ring. Qed.
(** Two finite points. *)
Lemma complete_fin x1 y1 x2 y2 : on (Pt x1 y1) -> on (Pt x2 y2) ->
  exists l p, l <> 0 /\ complete_add (Prj x1 y1 1) (Prj x2 y2 1) = pscale l p /\ on_proj_curve p /\ proj_pt K p = pt_add (Pt x1 y1) (Pt x2 y2).
Proof.
  intros H1 H2. pose proof (y_nz _ _ H1) as Y1. pose proof (y_nz _ _ H2) as Y2.
  destruct (kdec K x1 x2) as [EX|NX]; [subst x2; destruct (same_x K b _ _ _ H1 H2) as [E|E]|].
  - injection E as E. symmetry in E. subst y2. set (l := (1 + 1) * ((1 + 1) * ((1 + 1) * (y1 * y1 * y1)))).
    assert (L : l <> 0) by (unfold l; repeat apply kmul_neq0; assumption).
    assert (Y2' : y1 + y1 <> 0) by (intros E; apply (dbl0 K two) in E; contradiction).
    set (m := (x1 * x1 + x1 * x1 + x1 * x1) / (y1 + y1)). set (x3 := m * m - x1 - x1).
    assert (O3 : on (pt_add (Pt x1 y1) (Pt x1 y1))) by (apply (add_on K b two); assumption).
    rewrite (dbl_eq K two _ _ Y1) in *. cbv zeta in O3 |- *. fold m in O3 |- *. fold x3 in O3 |- *.
    exists l, (Prj x3 (m * (x1 - x3) - y1) 1). split; [exact L|]. split; [|split; [apply fin_on, O3|apply fin_pt]].
    cbn in H1. assert (B : b = y1 * y1 - x1 * x1 * x1) by (rewrite H1; ring).
    unfold complete_add, pscale. cbn [jx jy jz]. rewrite Hb3, B. unfold x3, m, l. apply proj_ext; field; assumption.
  - cbn in E. injection E as E. assert (E2 : y2 = - y1) by (rewrite E; ring). clear E. subst y2.
    set (D := pt_add (Pt x1 y1) (Pt x1 y1)). assert (OD : on D) by (apply (add_on K b two); assumption).
    assert (Y2' : y1 + y1 <> 0) by (intros E; apply (dbl0 K two) in E; contradiction).
    unfold D in OD. rewrite (dbl_eq K two _ _ Y1) in OD. cbv zeta in OD. clear D.
    set (m := (x1 * x1 + x1 * x1 + x1 * x1) / (y1 + y1)) in OD. set (x3 := m * m - x1 - x1) in OD.
    pose proof (y_nz _ _ OD) as YD.
    exists ((1 + 1) * ((1 + 1) * ((1 + 1) * (y1 * y1 * y1))) * (m * (x1 - x3) - y1)), (Prj 0 1 0).
    split; [repeat apply kmul_neq0; assumption|]. split; [|split; [apply inf_on|]].
    + cbn in H1. assert (B : b = y1 * y1 - x1 * x1 * x1) by (rewrite H1; ring).
      unfold complete_add, pscale. cbn [jx jy jz]. rewrite Hb3, B. unfold x3, m. apply proj_ext; [ring|field; assumption|ring].
    + rewrite inf_pt. symmetry. apply (add_neg K (Pt x1 y1)).
  - pose proof (subn K _ _ NX) as D. set (N := Pt x2 (- y2)). assert (ON : on N) by (cbn in *; rewrite <- H2; ring).
    assert (OM : on (pt_add (Pt x1 y1) N)) by (apply (add_on K b two); assumption).
    unfold N in OM. rewrite (chord_eq K _ _ _ _ NX) in OM. cbv zeta in OM. clear N ON.
    set (m := (y1 - - y2) / (x1 - x2)) in OM. set (x3 := m * m - x1 - x2) in OM. pose proof (y_nz _ _ OM) as YM.
    set (n := (y1 - y2) / (x1 - x2)). set (x4 := n * n - x1 - x2).
    assert (O4 : on (pt_add (Pt x1 y1) (Pt x2 y2))) by (apply (add_on K b two); assumption).
    rewrite (chord_eq K _ _ _ _ NX) in *. cbv zeta in *. fold n in O4 |- *. fold x4 in O4 |- *.
    exists (- (m * (x1 - x3) - y1) * ((x1 - x2) * (x1 - x2) * (x1 - x2))), (Prj x4 (n * (x1 - x4) - y1) 1).
    split; [repeat apply kmul_neq0; try assumption; intros E; apply YM; transitivity (- - (m * (x1 - x3) - y1)); [ring|rewrite E; ring]|].
    split; [|split; [apply fin_on, O4|apply fin_pt]].
    cbn in H1, H2. assert (B : b = y1 * y1 - x1 * x1 * x1) by (rewrite H1; ring).
    assert (B2 : y2 * y2 = x2 * x2 * x2 + (y1 * y1 - x1 * x1 * x1)) by (rewrite <- B; exact H2).
    unfold complete_add, pscale. cbn [jx jy jz]. rewrite Hb3, B. unfold x3, m, x4, n. clear - B2 D. apply proj_ext; field [B2]; assumption.
Qed.
Lemma complete_ok p q : on_proj_curve p -> on_proj_curve q ->
  on_proj_curve (complete_add p q) /\ proj_pt K (complete_add p q) = pt_add (proj_pt K p) (proj_pt K q).
Proof.
  intros HP HQ. destruct (on_proj_cases p HP) as (l & L & DP). destruct (on_proj_cases q HQ) as (m & M & DQ).
  assert (LM : l * m * (l * m) <> 0) by (repeat apply kmul_neq0; assumption).
  assert (KEY : forall p0 q0, p = pscale l p0 -> q = pscale m q0 ->
    (exists n r, n <> 0 /\ complete_add p0 q0 = pscale n r /\ on_proj_curve r /\ proj_pt K r = pt_add (proj_pt K p0) (proj_pt K q0)) ->
    on_proj_curve (complete_add p q) /\ proj_pt K (complete_add p q) = pt_add (proj_pt K p) (proj_pt K q)).
  { intros p0 q0 -> -> (n & r & N & E & O & R). rewrite complete_scale, E. split.
    - apply pscale_on; [exact LM|]. apply pscale_on; assumption.
    - rewrite !pscale_pt by assumption. exact R. }
  destruct DP as [-> |(x1 & y1 & H1 & ->)], DQ as [-> |(x2 & y2 & H2 & ->)]; (eapply KEY; [reflexivity|reflexivity|]).
  - exists 1, (Prj 0 1 0). split; [apply k1_neq0|]. split; [unfold complete_add, pscale; cbn [jx jy jz]; apply proj_ext; ring|]. split; [apply inf_on|]. rewrite inf_pt. reflexivity.
  - exists y2, (Prj x2 y2 1). split; [apply (y_nz _ _ H2)|]. split; [unfold complete_add, pscale; cbn [jx jy jz]; apply proj_ext; ring|]. split; [apply fin_on, H2|]. rewrite inf_pt, fin_pt. reflexivity.
  - exists y1, (Prj x1 y1 1). split; [apply (y_nz _ _ H1)|]. split; [unfold complete_add, pscale; cbn [jx jy jz]; apply proj_ext; ring|]. split; [apply fin_on, H1|]. rewrite inf_pt, fin_pt. reflexivity.
  - rewrite !fin_pt. apply complete_fin; assumption.
Qed.
(** Doubling stays among the projective points. *)
Lemma double_complete p : on_proj_curve p ->
  on_proj_curve (double_projective_point K b3 p) /\ proj_pt K (double_projective_point K b3 p) = pt_add (proj_pt K p) (proj_pt K p).
Proof.
  intros HP. destruct (on_proj_cases p HP) as (l & L & DP).
  assert (SC : forall p0, double_projective_point K b3 (pscale l p0) = pscale (l * l * (l * l)) (double_projective_point K b3 p0)).
  { intros [x y z]. unfold double_projective_point, pscale, kdbl, ksq. cbn [jx jy jz]. cbv zeta. apply proj_ext; ring. }
  assert (LL : l * l * (l * l) <> 0) by (repeat apply kmul_neq0; assumption).
  destruct DP as [-> |(x & y & H & ->)]; rewrite SC, !pscale_pt by assumption.
  - assert (E : double_projective_point K b3 (Prj 0 1 0) = Prj 0 1 0) by (unfold double_projective_point, kdbl, ksq; cbn [jx jy jz]; cbv zeta; apply proj_ext; ring).
    rewrite E, inf_pt. split; [apply pscale_on; [exact LL|apply inf_on]|reflexivity].
  - pose proof (double_proj_ok K b b3 Hb3 two (Prj x y 1)) as DD. rewrite fin_pt in DD. specialize (DD H). rewrite fin_pt. split; [|exact DD].
    apply pscale_on; [exact LL|]. assert (OD : on (pt_add (Pt x y) (Pt x y))) by (apply (add_on K b two); assumption). rewrite <- DD in OD. set (d := double_projective_point K b3 (Prj x y 1)) in *.
    assert (Z : jz d <> 0).
    { unfold d, double_projective_point, kdbl, ksq. cbn [jx jy jz]. cbv zeta. pose proof (y_nz _ _ H) as Y. intros E.
      assert (E' : (1 + 1) * ((1 + 1) * ((1 + 1) * (y * y * y))) = 0) by (rewrite <- E; ring).
      revert E'. repeat apply kmul_neq0; assumption. }
    clearbody d. destruct d as [dx dy dz]. cbn [jz] in Z. rewrite proj_pt_fin in OD by exact Z. split; cbn [jx jy jz]; [|intros (_ & _ & E); exact (Z E)].
    apply (on_proj K b _ _ _ Z OD).
Qed.
Lemma on_proj_on p : on_proj_curve p -> on (proj_pt K p).
Proof.
  intros HP. destruct (on_proj_cases p HP) as (l & L & [-> |(x & y & H & ->)]); rewrite pscale_pt by exact L; [rewrite inf_pt; exact I|rewrite fin_pt; exact H].
Qed.
End Complete.
