(** The Edwards curve is a group, the formulas of the library compute its law. *)
From Coq Require Import ZArith List Bool Field Lia Eqdep_dec.
From Verif Require Import LimbModel FieldModel FieldSpec Algebra GroupLib EdwardsModel EdwardsSpec.
Import ListNotations.
Local Open Scope fld_scope.

Section Ed.
Variable K : Fld.
Add Field edfield : (kth K).
Variable d : K.
Hypothesis EC : ed_complete d.
Notation on := (ed_on d).
Notation add := (ed_add d).

(** ** No exceptional cases *)
Lemma ed_no_unit (x1 y1 x2 y2 s : K) : on (x1, y1) -> on (x2, y2) -> s * s = 1 -> d * x1 * x2 * y1 * y2 <> s.
Proof.
  cbn. intros H1 H2 HS E. destruct (ec_i d EC) as (i & Hi).
  assert (S0 : s <> 0). { intros ->. apply (k1_neq0 K). rewrite <- HS. ring. }
  assert (N1 : x1 <> 0) by (intros ->; apply S0; rewrite <- E; ring).
  assert (N2 : y1 <> 0) by (intros ->; apply S0; rewrite <- E; ring).
  assert (N4 : y2 <> 0) by (intros ->; apply S0; rewrite <- E; ring).
  (* the key identity, for both square roots of -1 *)
  assert (KEY : forall j : K, j * j = - (1) -> (j * x1 + s * y1) * (j * x1 + s * y1) = d * ((x1 * y1) * (y2 + j * x2)) * ((x1 * y1) * (y2 + j * x2))).
  { intros j Hj.
    transitivity (- (x1 * x1) + (s * s) * (y1 * y1) + (1 + 1) * (j * x1 * y1) * s); [ring [Hj]|].
    rewrite HS. transitivity ((1 + d * (x1 * x1) * (y1 * y1)) + (1 + 1) * (j * x1 * y1) * s); [rewrite <- H1; ring|].
    transitivity (d * (x1 * x1) * (y1 * y1) * (y2 * y2 - x2 * x2) + (1 + 1) * (j * x1 * y1) * s).
    - rewrite H2. transitivity (s * s + d * (x1 * x1) * (y1 * y1) + (1 + 1) * (j * x1 * y1) * s); [rewrite HS; ring|]. rewrite <- E. ring.
    - rewrite <- E. ring [Hj]. }
  assert (Z : forall j : K, j * j = - (1) -> y2 + j * x2 = 0).
  { intros j Hj. destruct (kdec K (y2 + j * x2) 0) as [|N]; [assumption|exfalso].
    assert (M : x1 * y1 * (y2 + j * x2) <> 0) by (apply kmul_neq0; [apply kmul_neq0|]; assumption).
    apply (ec_d d EC ((j * x1 + s * y1) / (x1 * y1 * (y2 + j * x2)))).
    transitivity ((j * x1 + s * y1) * (j * x1 + s * y1) / ((x1 * y1 * (y2 + j * x2)) * (x1 * y1 * (y2 + j * x2)))).
    - field. repeat split; assumption.
    - rewrite (KEY j Hj). field. repeat split; assumption. }
  pose proof (Z i Hi) as Z1. pose proof (Z (- i) ltac:(transitivity (i * i); [ring|exact Hi])) as Z2.
  assert (T : (1 + 1) * y2 = 0) by (transitivity ((y2 + i * x2) + (y2 + - i * x2)); [ring|rewrite Z1, Z2; ring]).
  apply kmul_eq0 in T as [T|T]; [exact (ec_two d EC T)|contradiction].
Qed.
Lemma ed_den_plus x1 y1 x2 y2 : on (x1, y1) -> on (x2, y2) -> 1 + d * x1 * x2 * y1 * y2 <> 0.
Proof.
  intros H1 H2 E. apply (ed_no_unit x1 y1 x2 y2 (- (1)) H1 H2); [ring|].
  transitivity ((1 + d * x1 * x2 * y1 * y2) - 1); [ring|rewrite E; ring].
Qed.
Lemma ed_den_minus x1 y1 x2 y2 : on (x1, y1) -> on (x2, y2) -> 1 - d * x1 * x2 * y1 * y2 <> 0.
Proof.
  intros H1 H2 E. apply (ed_no_unit x1 y1 x2 y2 1 H1 H2); [ring|].
  transitivity (1 - (1 - d * x1 * x2 * y1 * y2)); [ring|rewrite E; ring].
Qed.

(** ** The group *)
Lemma curve_eq x y : on (x, y) -> d*x*x*y*y + x*x - y*y + 1 = 0.
Proof.
  cbn. intros H. transitivity ((1 + d * (x * x) * (y * y)) - (y * y - x * x)); [ring|rewrite H; ring].
Qed.
Lemma curve_eq_inv x y : d*x*x*y*y + x*x - y*y + 1 = 0 -> on (x, y).
Proof.
  cbn. intros H. transitivity ((1 + d * (x * x) * (y * y)) - (d*x*x*y*y + x*x - y*y + 1)); [ring|rewrite H; ring].
Qed.
Lemma quot_eq (a b c e : K) : b <> 0 -> e <> 0 -> a * e = c * b -> a / b = c / e.
Proof. intros N M H. transitivity ((a * e) / (b * e)); [field; split; assumption|]. rewrite H. field. split; assumption. Qed.

Lemma ed_add_on P Q : on P -> on Q -> on (add P Q).
Proof.
  destruct P as [x1 y1], Q as [x2 y2]. intros H1 H2. pose proof (ed_den_plus _ _ _ _ H1 H2) as G. pose proof (ed_den_minus _ _ _ _ H1 H2) as F.
  apply curve_eq in H1, H2. unfold ed_add. set (c := d * x1 * x2 * y1 * y2) in *. apply curve_eq_inv.
  set (e := x1 * y2 + y1 * x2). set (h := y1 * y2 + x1 * x2). set (f := 1 - c) in *. set (g := 1 + c) in *.
  assert (A : h * h * g * g - e * e * f * f - f * f * g * g - d * e * e * h * h =
    (0 - y2*y2 + x2*x2 + d*x2*x2*y2*y2 + d*y1*y1*x2*x2*y2*y2 - d*x1*x1*x2*x2*y2*y2 - d*d*d*x1*x1*y1*y1*x2*x2*x2*x2*y2*y2*y2*y2) * (d*x1*x1*y1*y1 + x1*x1 - y1*y1 + 1) + (0 - 1 + d*x1*x1*y1*y1*y2*y2 - d*x1*x1*y1*y1*x2*x2 + d*d*x1*x1*y1*y1*x2*x2*y2*y2 - d*d*x1*x1*y1*y1*y1*y1*x2*x2*y2*y2 + d*d*x1*x1*x1*x1*y1*y1*x2*x2*y2*y2) * (d*x2*x2*y2*y2 + x2*x2 - y2*y2 + 1)) by (unfold e, f, g, h, c; ring).
  rewrite H1, H2 in A.
  transitivity (- (h * h * g * g - e * e * f * f - f * f * g * g - d * e * e * h * h) / (f * f * g * g)); [field; split; assumption|].
  rewrite A. field. split; assumption.
Qed.
Lemma ed_add_comm P Q : add P Q = add Q P.
Proof.
  destruct P as [x1 y1], Q as [x2 y2]. cbn. apply f_equal2.
  - apply f_equal2; ring.
  - apply f_equal2; ring.
Qed.
Lemma ed_zero_on : on ed_zero. Proof. cbn. ring. Qed.
Lemma ed_zero_l P : add ed_zero P = P.
Proof.
  destruct P as [x y]. cbn. apply f_equal2.
  - transitivity (x / 1); [apply f_equal2; ring|field; apply k1_neq0].
  - transitivity (y / 1); [apply f_equal2; ring|field; apply k1_neq0].
Qed.
Lemma ed_neg_on P : on P -> on (ed_neg P).
Proof. destruct P as [x y]. cbn. intros H. transitivity (y * y - x * x); [ring|rewrite H; ring]. Qed.
Lemma ed_add_neg P : on P -> add P (ed_neg P) = ed_zero.
Proof.
  destruct P as [x y]. intros H. pose proof (ed_den_plus _ _ _ _ H (ed_neg_on _ H)) as G. pose proof (ed_den_minus _ _ _ _ H (ed_neg_on _ H)) as F.
  cbn in *. apply f_equal2.
  - transitivity (0 / (1 + d * x * - x * y * y)); [apply f_equal2; ring|]. generalize dependent (1 + d * x * - x * y * y). intros g G. field. exact G.
  - transitivity ((y * y - x * x) / (1 - d * x * - x * y * y)); [apply f_equal2; ring|]. rewrite H.
    transitivity ((1 - d * x * - x * y * y) / (1 - d * x * - x * y * y)); [apply f_equal2; ring|].
    generalize dependent (1 - d * x * - x * y * y). intros g F. field. exact F.
Qed.
Lemma ed_add_assoc P Q R : on P -> on Q -> on R -> add (add P Q) R = add P (add Q R).
Proof.
  intros HP HQ HR. pose proof (ed_add_on _ _ HP HQ) as HPQ. pose proof (ed_add_on _ _ HQ HR) as HQR.
  destruct P as [x1 y1], Q as [x2 y2], R as [x3 y3].
  pose proof (ed_den_plus _ _ _ _ HP HQ) as G. pose proof (ed_den_minus _ _ _ _ HP HQ) as F.
  pose proof (ed_den_plus _ _ _ _ HQ HR) as G'. pose proof (ed_den_minus _ _ _ _ HQ HR) as F'.
  unfold ed_add in *.
  pose proof (ed_den_plus _ _ _ _ HPQ HR) as DA. pose proof (ed_den_minus _ _ _ _ HPQ HR) as DB.
  pose proof (ed_den_plus _ _ _ _ HP HQR) as DC. pose proof (ed_den_minus _ _ _ _ HP HQR) as DD.
  clear HPQ HQR. apply curve_eq in HP, HQ, HR.
  set (c := d * x1 * x2 * y1 * y2) in *. set (c' := d * x2 * x3 * y2 * y3) in *.
  set (e := x1 * y2 + y1 * x2) in *. set (h := y1 * y2 + x1 * x2) in *. set (e' := x2 * y3 + y2 * x3) in *. set (h' := y2 * y3 + x2 * x3) in *.
  assert (EX : (e * (1 - c) * y3 + x3 * h * (1 + c)) * ((1 - c') * (1 + c') + d * e' * h' * x1 * y1) =
    (x1 * h' * (1 + c') + y1 * e' * (1 - c')) * ((1 - c) * (1 + c) + d * e * h * x3 * y3) +
    ((d*y1*x2*y2*y2*y2*y2*x3*x3*y3 + d*y1*x2*x2*y2*x3*y3*y3 + d*y1*x2*x2*x2*y2*y2*y3 - d*y1*x2*x2*x2*y2*y2*y3*y3*y3 - d*x1*x2*y2*y2*x3*y3*y3 - d*x1*x2*x2*y2*x3*x3*y3 - d*d*y1*x2*x2*y2*y2*y2*x3*x3*x3*y3*y3 - d*d*y1*x2*x2*x2*y2*y2*y2*y2*x3*x3*y3 - d*d*x1*x2*x2*y2*y2*y2*x3*x3*y3*y3*y3 - d*d*x1*x2*x2*x2*y2*y2*x3*x3*x3*y3*y3) * (d*x1*x1*y1*y1 + x1*x1 - y1*y1 + 1) +
     (d*y1*x2*y2*y2*x3*x3*y3 - d*y1*y1*y1*x2*y2*y2*x3*x3*y3 - d*x1*x1*y1*x2*y2*y2*y3 + d*x1*x1*y1*x2*y2*y2*y3*y3*y3 - d*d*x1*y1*y1*x2*y2*y2*x3*x3*x3*y3*y3 + d*d*x1*y1*y1*x2*x2*y2*x3*x3*y3*y3*y3 - d*d*x1*x1*y1*x2*x2*y2*x3*x3*x3*y3*y3 - d*d*x1*x1*y1*y1*y1*x2*x2*y2*x3*y3*y3 + d*d*x1*x1*x1*y1*y1*x2*y2*y2*x3*y3*y3 + d*d*x1*x1*x1*y1*y1*x2*x2*y2*x3*x3*y3) * (d*x2*x2*y2*y2 + x2*x2 - y2*y2 + 1) +
     (0 - d*y1*x2*x2*x2*y2*y2*y3 + d*y1*y1*y1*x2*x2*x2*y2*y2*y3 + d*x1*y1*y1*x2*y2*y2*x3 - d*x1*y1*y1*x2*x2*y2*y3 - d*x1*x1*y1*x2*y2*y2*y2*y2*y3 + d*x1*x1*y1*x2*x2*y2*x3 + d*d*x1*x1*y1*x2*x2*x2*y2*y2*y2*y2*y3 + d*d*x1*x1*y1*y1*y1*x2*x2*y2*y2*y2*x3 + d*d*x1*x1*x1*y1*y1*x2*x2*y2*y2*y2*y3 + d*d*x1*x1*x1*y1*y1*x2*x2*x2*y2*y2*x3) * (d*x3*x3*y3*y3 + x3*x3 - y3*y3 + 1)))
    by (unfold e, h, e', h', c, c'; ring).
  assert (EY : (h * (1 + c) * y3 + e * (1 - c) * x3) * ((1 - c') * (1 + c') - d * e' * h' * x1 * y1) =
    (y1 * h' * (1 + c') + x1 * e' * (1 - c')) * ((1 - c) * (1 + c) - d * e * h * x3 * y3) +
    ((0 - d*y1*x2*y2*y2*y2*y2*x3*y3*y3 - d*y1*x2*x2*y2*x3*x3*y3 + d*y1*x2*x2*x2*y2*y2*x3 + d*y1*x2*x2*x2*y2*y2*x3*x3*x3 + d*x1*x2*y2*y2*x3*x3*y3 + d*x1*x2*x2*y2*x3*y3*y3 - d*d*y1*x2*x2*y2*y2*y2*x3*x3*y3*y3*y3 + d*d*y1*x2*x2*x2*y2*y2*y2*y2*x3*y3*y3 - d*d*x1*x2*x2*y2*y2*y2*x3*x3*x3*y3*y3 - d*d*x1*x2*x2*x2*y2*y2*x3*x3*y3*y3*y3) * (d*x1*x1*y1*y1 + x1*x1 - y1*y1 + 1) +
     (0 - d*y1*x2*y2*y2*x3*y3*y3 + d*y1*y1*y1*x2*y2*y2*x3*y3*y3 - d*x1*x1*y1*x2*y2*y2*x3 - d*x1*x1*y1*x2*y2*y2*x3*x3*x3 - d*d*x1*y1*y1*x2*y2*y2*x3*x3*y3*y3*y3 + d*d*x1*y1*y1*x2*x2*y2*x3*x3*x3*y3*y3 - d*d*x1*x1*y1*x2*x2*y2*x3*x3*y3*y3*y3 + d*d*x1*x1*y1*y1*y1*x2*x2*y2*x3*x3*y3 - d*d*x1*x1*x1*y1*y1*x2*y2*y2*x3*x3*y3 - d*d*x1*x1*x1*y1*y1*x2*x2*y2*x3*y3*y3) * (d*x2*x2*y2*y2 + x2*x2 - y2*y2 + 1) +
     (0 - d*y1*x2*x2*x2*y2*y2*x3 + d*y1*y1*y1*x2*x2*x2*y2*y2*x3 + d*x1*y1*y1*x2*y2*y2*y3 - d*x1*y1*y1*x2*x2*y2*x3 - d*x1*x1*y1*x2*y2*y2*y2*y2*x3 + d*x1*x1*y1*x2*x2*y2*y3 + d*d*x1*x1*y1*x2*x2*x2*y2*y2*y2*y2*x3 + d*d*x1*x1*y1*y1*y1*x2*x2*y2*y2*y2*y3 + d*d*x1*x1*x1*y1*y1*x2*x2*y2*y2*y2*x3 + d*d*x1*x1*x1*y1*y1*x2*x2*x2*y2*y2*y3) * (d*x3*x3*y3*y3 + x3*x3 - y3*y3 + 1)))
    by (unfold e, h, e', h', c, c'; ring).
  rewrite HP, HQ, HR in EX, EY. clear HP HQ HR. clearbody c c' e h e' h'.
  assert (DA' : (1 - c) * (1 + c) + d * e * h * x3 * y3 <> 0).
  { intros E. apply DA. transitivity (((1 - c) * (1 + c) + d * e * h * x3 * y3) / ((1 - c) * (1 + c))); [field; split; assumption|rewrite E; field; split; assumption]. }
  assert (DB' : (1 - c) * (1 + c) - d * e * h * x3 * y3 <> 0).
  { intros E. apply DB. transitivity (((1 - c) * (1 + c) - d * e * h * x3 * y3) / ((1 - c) * (1 + c))); [field; split; assumption|rewrite E; field; split; assumption]. }
  assert (DC' : (1 - c') * (1 + c') + d * e' * h' * x1 * y1 <> 0).
  { intros E. apply DC. transitivity (((1 - c') * (1 + c') + d * e' * h' * x1 * y1) / ((1 - c') * (1 + c'))); [field; split; assumption|rewrite E; field; split; assumption]. }
  assert (DD' : (1 - c') * (1 + c') - d * e' * h' * x1 * y1 <> 0).
  { intros E. apply DD. transitivity (((1 - c') * (1 + c') - d * e' * h' * x1 * y1) / ((1 - c') * (1 + c'))); [field; split; assumption|rewrite E; field; split; assumption]. }
  apply f_equal2.
  - apply quot_eq; [exact DA|exact DC|].
    transitivity ((e * (1 - c) * y3 + x3 * h * (1 + c)) * ((1 - c') * (1 + c') + d * e' * h' * x1 * y1) / (((1 - c) * (1 + c)) * ((1 - c') * (1 + c'))));
      [field; repeat split; assumption|]. rewrite EX. field. repeat split; assumption.
  - apply quot_eq; [exact DB|exact DD|].
    transitivity ((h * (1 + c) * y3 + e * (1 - c) * x3) * ((1 - c') * (1 + c') - d * e' * h' * x1 * y1) / (((1 - c) * (1 + c)) * ((1 - c') * (1 + c'))));
      [field; repeat split; assumption|]. rewrite EY. field. repeat split; assumption.
Qed.

(** The points as a commutative group. *)
Definition ed_onb (P : K * K) : bool := let (x, y) := P in keqb (y * y - x * x) (1 + d * (x * x) * (y * y)).
Lemma ed_onb_on P : ed_onb P = true <-> on P.
Proof. destruct P. cbn. apply keqb_eq. Qed.
Definition edpt : Type := { P : K * K | ed_onb P = true }.
Definition edval (P : edpt) : K * K := proj1_sig P.
Lemma edval_on P : on (edval P). Proof. apply ed_onb_on. exact (proj2_sig P). Qed.
Lemma edpt_eq (P Q : edpt) : edval P = edval Q -> P = Q.
Proof. destruct P as [P HP], Q as [Q HQ]; cbn. intros E. subst Q. f_equal. apply UIP_dec, Bool.bool_dec. Qed.
Definition edmk (P : K * K) (H : on P) : edpt := exist _ P (proj2 (ed_onb_on P) H).
Definition edgrp : AbGrp.
Proof.
  refine (mkAb edpt (edmk ed_zero ed_zero_on) (fun P Q => edmk (add (edval P) (edval Q)) (ed_add_on _ _ (edval_on P) (edval_on Q)))
    (fun P => edmk (ed_neg (edval P)) (ed_neg_on _ (edval_on P))) _ _ _ _).
  - intros P Q R. apply edpt_eq. cbn [edval edmk proj1_sig]. symmetry. apply ed_add_assoc; apply edval_on.
  - intros P Q. apply edpt_eq. apply ed_add_comm.
  - intros P. apply edpt_eq. apply ed_zero_l.
  - intros P. apply edpt_eq. apply ed_add_neg, edval_on.
Defined.
Lemma edval_add (P Q : edgrp) : edval (aadd P Q) = add (edval P) (edval Q). Proof. reflexivity. Qed.
Lemma edval_neg (P : edgrp) : edval (aneg P) = ed_neg (edval P). Proof. reflexivity. Qed.
Lemma edval_nmul n (P : edgrp) : edval (nmul n P) = ed_mul d n (edval P).
Proof. induction n as [|n IH]; [reflexivity|]. cbn [nmul ed_mul]. rewrite edval_add, IH. reflexivity. Qed.

(** ** The formulas *)
Lemma ed_mixed_ok p q Q : on (ed_aff p) -> on Q -> ed_ext q Q -> ed_ext (ed_add_mixed K d p q) (add (ed_aff p) Q).
Proof.
  destruct p as [x0 y0], q as [X Y T Z], Q as [x1 y1]. unfold ed_aff. cbn [eax eay]. intros H0 H1 (NZ & EX & EY & ET). cbn [eex eey eet eez] in *.
  pose proof (ed_den_plus _ _ _ _ H0 H1) as G. pose proof (ed_den_minus _ _ _ _ H0 H1) as F. subst X Y T.
  unfold ed_add, ed_ext, ed_add_mixed. cbn [eex eey eet eez].
  set (c := d * x0 * x1 * y0 * y1) in *.
  assert (A1 : d * x0 * y0 * (x1 * y1 * Z) = c * Z) by (unfold c; ring). rewrite A1. clear A1. clearbody c.
  split; [|split; [|split]].
  - intros E. apply kmul_eq0 in E as [E|E].
    + apply (kmul_neq0 K _ _ F NZ). rewrite <- E. ring.
    + apply (kmul_neq0 K _ _ G NZ). rewrite <- E. ring.
  - field. repeat split; assumption.
  - field. repeat split; assumption.
  - field. repeat split; assumption.
Qed.
Lemma ed_extend_ok p : ed_ext (eaff_to_extended K p) (ed_aff p).
Proof. destruct p as [x y]. cbn. split; [apply k1_neq0|]. split; [ring|]. split; ring. Qed.
Lemma ed_ext_ok p q P Q : on P -> on Q -> ed_ext p P -> ed_ext q Q -> ed_ext (ed_add_ext K d p q) (add P Q).
Proof.
  destruct p as [X0 Y0 T0 Z0], q as [X Y T Z], P as [x0 y0], Q as [x1 y1]. intros H0 H1 (NZ0 & EX0 & EY0 & ET0) (NZ & EX & EY & ET). cbn [eex eey eet eez] in *.
  pose proof (ed_den_plus _ _ _ _ H0 H1) as G. pose proof (ed_den_minus _ _ _ _ H0 H1) as F. subst X Y T X0 Y0 T0.
  unfold ed_add, ed_ext, ed_add_ext. cbn [eex eey eet eez].
  set (c := d * x0 * x1 * y0 * y1) in *.
  assert (A1 : d * (x0 * y0 * Z0) * (x1 * y1 * Z) = c * (Z0 * Z)) by (unfold c; ring). rewrite A1. clear A1. clearbody c.
  pose proof (kmul_neq0 K _ _ NZ0 NZ) as NZZ.
  split; [|split; [|split]].
  - intros E. apply kmul_eq0 in E as [E|E].
    + apply (kmul_neq0 K _ _ F NZZ). rewrite <- E. ring.
    + apply (kmul_neq0 K _ _ G NZZ). rewrite <- E. ring.
  - field. repeat split; assumption.
  - field. repeat split; assumption.
  - field. repeat split; assumption.
Qed.
Lemma ed_aff_ok p q : on (ed_aff p) -> on (ed_aff q) -> ed_ext (ed_add_affine K d p q) (add (ed_aff p) (ed_aff q)).
Proof.
  intros H0 H1. assert (E : ed_add_affine K d p q = ed_add_mixed K d p (eaff_to_extended K q)).
  { destruct p as [x0 y0], q as [x1 y1]. cbn. apply f_equal4; ring. }
  rewrite E. apply ed_mixed_ok; [assumption|assumption|apply ed_extend_ok].
Qed.
Lemma ed_double_aff_ok p : on (ed_aff p) -> ed_ext (ed_double_affine K d p) (add (ed_aff p) (ed_aff p)).
Proof. intros H. pose proof (ed_aff_ok p p H H) as R. destruct p as [x y]. exact R. Qed.
Lemma ed_double_ext_ok p P : on P -> ed_ext p P -> ed_ext (ed_double_ext K p) (add P P).
Proof.
  destruct p as [X Y T Z], P as [x y]. intros H (NZ & EX & EY & ET). cbn [eex eey eet eez] in *.
  pose proof (ed_den_plus _ _ _ _ H H) as G. pose proof (ed_den_minus _ _ _ _ H H) as F. subst X Y T.
  cbn in H. unfold ed_add, ed_ext, ed_double_ext, ksq, kdbl. cbn [eex eey eet eez].
  assert (A1 : 1 + d * x * x * y * y = y * y - x * x) by (rewrite H; ring).
  assert (A2 : 1 - d * x * x * y * y = 1 + 1 - (y * y - x * x)) by (rewrite H; ring).
  rewrite A1 in *. rewrite A2 in *. clear A1 A2 H. pose proof (kmul_neq0 K _ _ NZ NZ) as NZZ.
  split; [|split; [|split]].
  - intros E. apply kmul_eq0 in E as [E|E].
    + apply (kmul_neq0 K _ _ F NZZ). transitivity (- (- (x * Z * (x * Z)) + y * Z * (y * Z) - (Z * Z + Z * Z))); [ring|rewrite E; ring].
    + apply (kmul_neq0 K _ _ G NZZ). rewrite <- E. ring.
  - field. repeat split; assumption.
  - field. repeat split; assumption.
  - field. repeat split; assumption.
Qed.
Lemma ed_neg_ext_ok p P : ed_ext p P -> ed_ext (eext_neg K p) (ed_neg P).
Proof. destruct P as [x y]. cbn. intros (NZ & EX & EY & ET). rewrite EX, ET. split; [exact NZ|]. split; [ring|]. split; [exact EY|ring]. Qed.
Lemma ed_sub_ext_ok p q P Q : on P -> on Q -> ed_ext p P -> ed_ext q Q -> ed_ext (eext_sub K d p q) (add P (ed_neg Q)).
Proof. intros. apply ed_ext_ok; [assumption|apply ed_neg_on; assumption|assumption|apply ed_neg_ext_ok; assumption]. Qed.

(** Scalar multiplication. *)
Definition ereps (p : eext K) (P : edgrp) : Prop := ed_ext p (edval P).
Lemma ereps_digits p P ds : forall res k, ereps p P -> ereps res (zmul k P) ->
  ereps (fold_left (ed_scalar_step K d p) ds res) (zmul (fold_left (fun acc n => 2 * acc + n) (map naf_val ds) k)%Z P).
Proof.
  induction ds as [|n ds IH]; intros res k HP HR; [exact HR|]. cbn [fold_left map].
  apply IH; [exact HP|]. unfold ed_scalar_step.
  assert (D : ereps (ed_double_ext K res) (aadd (zmul k P) (zmul k P))) by (apply ed_double_ext_ok; [apply edval_on|exact HR]).
  rewrite <- zmul_double in D. destruct n; cbn [naf_val].
  - rewrite Z.add_0_r. exact D.
  - rewrite zmul_add, zmul_1. apply ed_ext_ok; try apply edval_on; assumption.
  - rewrite zmul_add. change (-1)%Z with (- (1))%Z. rewrite zmul_opp, zmul_1. apply ed_sub_ext_ok; try apply edval_on; assumption.
Qed.
Lemma ed_identity_ok : ed_ext (eext_identity K) (ed_zero : K * K).
Proof. cbn. split; [apply k1_neq0|]. split; [ring|]. split; ring. Qed.
Lemma ereps_scalar p P ds : ereps p P -> ereps (ed_scalar_digits K d p ds) (zmul (be_value 2 (map naf_val ds)) P).
Proof. intros HP. apply (ereps_digits p P ds (eext_identity K) 0%Z HP). rewrite zmul_0. exact ed_identity_ok. Qed.
End Ed.
