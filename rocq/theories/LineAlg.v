(** Values of chords and tangents of y^2 = x^3 + b at points of the curve: slopes, products of lines
    (the cocycle identity), norms, and reciprocity of two lines. *)
From Coq Require Import ZArith List Bool Field Lia.
From Verif Require Import Algebra CurveSpec CurveGroup.
Import ListNotations.
Local Open Scope fld_scope.

Section Lines.
Variable K : Fld.
Add Field lfield : (kth K).
Variable b : K.
Hypothesis two : (1 + 1 : K) <> 0.
Hypothesis three : (1 + 1 + 1 : K) <> 0.
Hypothesis bnz : b <> 0.
Notation on := (on_curve b).
Notation lin := (lin K).
Notation thx := (thx K).
Notation thy := (thy K).

(** Slopes: alpha of A, B; D = A + B; beta of B, C; E = B + C; gamma of D, C; delta of A, E. *)
Lemma slopes_generic (p x y r al be ga de : K) : let yA := y + al * (p - x) in let yC := y + be * (r - x) in
  let xD := al * al - p - x in let yD := al * (x - xD) - y in
  let xE := be * be - x - r in let yE := be * (x - xE) - y in
  al * (yA + y) = p * p + p * x + x * x -> be * (y + yC) = x * x + x * r + r * r ->
  yD - yC = ga * (xD - r) -> yA - yE = de * (p - xE) -> xD - r <> 0 -> p - xE <> 0 -> al + ga = be + de.
Proof.
  intros yA yC xD yD xE yE L M G D N1 N2. unfold yA, yC in L, M.
  assert (E1 : p * p = al * (y + y) + al * al * (p - x) - p * x - x * x).
  { transitivity (p * p + p * x + x * x - p * x - x * x); [ring|]. rewrite <- L. ring. }
  assert (E2 : r * r = be * (y + y) + be * be * (r - x) - r * x - x * x).
  { transitivity (x * x + x * r + r * r - r * x - x * x); [ring|]. rewrite <- M. ring. }
  clear L M. apply ksub_eq0. apply (kmul_cancel_l K ((xD - r) * (p - xE))); [apply kmul_neq0; assumption|].
  transitivity ((al - be) * ((xD - r) * (p - xE)) + (ga * (xD - r)) * (p - xE) - (de * (p - xE)) * (xD - r)); [ring|].
  rewrite <- G, <- D. unfold yA, yC, yD, yE, xD, xE. ring [E1 E2].
Qed.
(** The same when D = C, so that the line through A and B passes through - C. *)
Lemma slopes_tangent (x y r z al be ga de : K) : let xA := al * al - x - r in let yA := al * (xA - x) + y in
  let xE := be * be - x - r in let yE := be * (x - xE) - y in
  y * y = x * x * x + b -> z * z = r * r * r + b ->
  y + z = al * (x - r) -> y - z = be * (x - r) -> ga * (z + z) = r * r + r * r + r * r -> yA - yE = de * (xA - xE) ->
  x - r <> 0 -> z + z <> 0 -> xA - xE <> 0 -> al + ga = be + de.
Proof.
  intros xA yA xE yE HB HC A B G D N1 N2 N3.
  assert (EA : al = (y + z) / (x - r)) by (rewrite A; field; exact N1).
  assert (EB : be = (y - z) / (x - r)) by (rewrite B; field; exact N1).
  assert (EG : ga = (r * r + r * r + r * r) / (z + z)) by (rewrite <- G; field; exact N2).
  assert (E : y * y = x * x * x + z * z - r * r * r) by (rewrite HB, HC; ring).
  apply ksub_eq0. apply (kmul_cancel_l K (xA - xE)); [exact N3|].
  transitivity ((al + ga - be) * (xA - xE) - de * (xA - xE)); [ring|]. rewrite <- D.
  unfold yA, yE, xA, xE. rewrite EA, EB, EG. clear - E N1 N2. field [E]. split; assumption.
Qed.

(** All cases, for points on the curve with B not of order two. *)
Lemma slopes xA yA xB yB xC yC al be ga de : let xD := al * al - xA - xB in let yD := al * (xB - xD) - yB in
  let xE := be * be - xB - xC in let yE := be * (xB - xE) - yB in
  on (Pt xA yA) -> on (Pt xB yB) -> on (Pt xC yC) -> yB <> 0 ->
  lin xA yA xB yB al -> lin xB yB xC yC be -> lin xD yD xC yC ga -> lin xA yA xE yE de -> al + ga = be + de.
Proof.
  intros xD yD xE yE HA HB HC NB LA LB LG LD. pose proof LA as [A1 A2]. pose proof LB as [B1 B2].
  assert (EA : yA = yB + al * (xA - xB)) by (rewrite <- A1; ring).
  assert (EC : yC = yB + be * (xC - xB)).
  { transitivity (yB - (yB - yC)); [ring|rewrite B1; ring]. }
  assert (OD : on (Pt xD yD)).
  { apply lin_sym, lin_third in LA. apply (lin_on _ b _ _ _ _ _ HB), on_neg in LA. cbn [pt_neg] in LA.
    replace (CurveGroup.thx K al xB xA) with xD in LA by (unfold CurveGroup.thx, xD; ring). unfold CurveGroup.thy in LA.
    replace (- - (al * (xB - xD) - yB)) with yD in LA by (unfold yD; ring). exact LA. }
  assert (OE : on (Pt xE yE)).
  { apply lin_third in LB. apply (lin_on _ b _ _ _ _ _ HB), on_neg in LB. cbn [pt_neg] in LB.
    replace (CurveGroup.thx K be xB xC) with xE in LB by (unfold CurveGroup.thx, xE; ring). unfold CurveGroup.thy in LB.
    replace (- - (be * (xB - xE) - yB)) with yE in LB by (unfold yE; ring). exact LB. }
  pose proof LG as [G1 G2]. pose proof LD as [D1 D2].
  assert (TG : xD = xC -> yD = yC). { intros E. apply ksub_eq0. rewrite G1, E. ring. }
  assert (TD : xA = xE -> yA = yE). { intros E. apply ksub_eq0. rewrite D1, E. ring. }
  assert (YG : xD = xC -> yC + yC <> 0).
  { intros E Z. apply (lin_not_opp K b two three bnz _ _ _ _ _ OD LG). split; [exact E|]. rewrite (TG E).
    apply ksub_eq0. rewrite <- Z. ring. }
  assert (YD : xA = xE -> yA + yA <> 0).
  { intros E Z. apply (lin_not_opp K b two three bnz _ _ _ _ _ HA LD). split; [exact E|]. rewrite <- (TD E).
    apply ksub_eq0. rewrite <- Z. ring. }
  (** If D = C then B, - C are on the line of slope al. *)
  assert (XG : xD = xC -> yB + yC = al * (xB - xC)). { intros E. rewrite <- (TG E), <- E. unfold yD. ring. }
  assert (XD : xA = xE -> yB + yA = be * (xB - xA)). { intros E. rewrite (TD E), E. unfold yE. ring. }
  assert (NG : xD = xC -> xB - xC <> 0).
  { intros E Z. assert (S : yB = - yC). { apply ksub_eq0. transitivity (yB + yC); [ring|]. rewrite (XG E), Z. ring. }
    apply (lin_not_opp K b two three bnz _ _ _ _ _ HB LB). split; [apply ksub_eq0, Z|exact S]. }
  assert (ND : xA = xE -> xB - xA <> 0).
  { intros E Z. assert (S : yB = - yA). { apply ksub_eq0. transitivity (yB + yA); [ring|]. rewrite (XD E), Z. ring. }
    apply (lin_not_opp K b two three bnz _ _ _ _ _ HA LA). split; [symmetry; apply ksub_eq0, Z|].
    rewrite S. ring. }
  destruct (kdec K xD xC) as [ED|ED]; destruct (kdec K xA xE) as [EE|EE].
  - (* both: B would have order two *)
    exfalso. apply NB. assert (Q : (al - be) * (al + be) = 0).
    { transitivity (al * al - be * be); [ring|]. transitivity ((xD + xA) - (xE + xC)); [unfold xD, xE; ring|]. rewrite ED, EE. ring. }
    specialize (NG ED). specialize (YG ED). specialize (XG ED).
    apply kmul_eq0 in Q as [Q|Q].
    + exfalso. apply YG. transitivity ((yB + yC) - (yB - yC)); [ring|]. rewrite XG, B1.
      transitivity ((al - be) * (xB - xC)); [ring|]. rewrite Q. ring.
    + apply (dbl0 K two). transitivity ((yB + yC) + (yB - yC)); [ring|]. rewrite XG, B1.
      transitivity ((al + be) * (xB - xC)); [ring|]. rewrite Q. ring.
  - specialize (NG ED). specialize (YG ED). specialize (XG ED).
    assert (XA : xA = al * al - xB - xC). { rewrite <- ED. unfold xD. ring. }
    apply (slopes_tangent xB yB xC yC al be ga de); try assumption.
    + rewrite (TG ED), ED in G2. exact G2.
    + rewrite <- XA. replace (al * (xA - xB) + yB) with yA by (rewrite EA; ring). exact D1.
    + rewrite <- XA. apply subn. exact EE.
  - specialize (ND EE). specialize (YD EE). specialize (XD EE). symmetry.
    assert (XC : xC = be * be - xB - xA). { rewrite EE. unfold xE. ring. }
    assert (XD' : xD = al * al - xB - xA) by (unfold xD; ring).
    apply (slopes_tangent xB yB xA yA be al de ga); try assumption.
    + transitivity (- (yA - yB)); [ring|]. rewrite A1. ring.
    + rewrite <- (TD EE), <- EE in D2. exact D2.
    + rewrite <- XC, <- XD'. replace (be * (xC - xB) + yB) with yC by (rewrite EC; ring).
      transitivity (- (yD - yC)); [unfold yD; ring|]. rewrite G1. ring.
    + rewrite <- XC, <- XD'. apply subn. congruence.
  - apply (slopes_generic xA xB yB xC al be ga de).
    + rewrite <- EA. exact A2.
    + rewrite <- EC. exact B2.
    + rewrite <- EC. exact G1.
    + rewrite <- EA. exact D1.
    + apply subn, ED.
    + apply subn, EE.
Qed.

(** Two lines through D and - D: their product at a point of the curve. *)
Lemma line_prod al ga xB yB xD x y : let mu := yB - al * xB in let yD := al * (xB - xD) - yB in
  on (Pt xD yD) -> on (Pt x y) ->
  ((y - yB) - al * (x - xB)) * ((y - yD) - ga * (x - xD)) =
  (x - xD) * (x * x + (al * ga + xD) * x + (xD * xD - al * al * xD + (ga - al) * mu) - (al + ga) * y).
Proof.
  intros mu yD HD H. cbn in HD, H. assert (EB : b = yD * yD - xD * xD * xD) by (rewrite HD; ring).
  rewrite EB in H. clear HD EB. unfold yD, mu in *. ring [H].
Qed.
Lemma vieta2 xA yA xB yB al : let xD := al * al - xA - xB in lin xA yA xB yB al ->
  - ((1 + 1) * al * (yB - al * xB)) = xA * xB + xD * (xA + xB).
Proof.
  intros xD [A1 A2]. assert (EA : yA = yB + al * (xA - xB)) by (rewrite <- A1; ring). rewrite EA in A2.
  assert (E : xA * xA = al * (yB + al * (xA - xB) + yB) - xA * xB - xB * xB).
  { rewrite A2. ring. }
  unfold xD. ring [E].
Qed.
(** The cocycle identity. *)
Lemma cocycle_lines xA yA xB yB xC yC al be ga de x y : let xD := al * al - xA - xB in let yD := al * (xB - xD) - yB in
  let xE := be * be - xB - xC in let yE := be * (xB - xE) - yB in
  on (Pt xA yA) -> on (Pt xB yB) -> on (Pt xC yC) -> yB <> 0 ->
  lin xA yA xB yB al -> lin xB yB xC yC be -> lin xD yD xC yC ga -> lin xA yA xE yE de ->
  on (Pt xD yD) -> on (Pt xE yE) -> ga * ga - xD - xC = de * de - xA - xE -> on (Pt x y) ->
  (((y - yB) - al * (x - xB)) * ((y - yD) - ga * (x - xD))) * (x - xE) =
  (((y - yB) - be * (x - xB)) * ((y - yE) - de * (x - xE))) * (x - xD).
Proof.
  intros xD yD xE yE HA HB HC NB LA LB LG LD OD OE AS H.
  pose proof (slopes xA yA xB yB xC yC al be ga de HA HB HC NB LA LB LG LD) as SL.
  pose proof (vieta2 xA yA xB yB al LA) as V1. cbv zeta in V1. fold xD in V1.
  pose proof (vieta2 xC yC xB yB be (lin_sym _ _ _ _ _ _ LB)) as V2. cbv zeta in V2.
  replace (be * be - xC - xB) with xE in V2 by (unfold xE; ring).
  pose proof (line_prod al ga xB yB xD x y OD H) as P1. cbv zeta in P1. fold yD in P1.
  pose proof (line_prod be de xB yB xE x y OE H) as P2. cbv zeta in P2. fold yE in P2.
  rewrite P1, P2. clear P1 P2.
  assert (T : al * ga + xD = be * de + xE).
  { apply ksub_eq0. apply (kmul_cancel_l K (1 + 1)); [exact two|].
    assert (Q : (al + ga) * (al + ga) = (be + de) * (be + de)) by (rewrite SL; reflexivity).
    transitivity (((al + ga) * (al + ga) - (be + de) * (be + de)) - ((ga * ga - xD - xC) - (de * de - xA - xE))
      + (xD - (al * al - xA - xB)) - (xE - (be * be - xB - xC))); [ring|].
    rewrite Q, AS. unfold xD, xE. ring. }
  assert (SA : (al + ga) * (al - be) = xA - xC).
  { transitivity (al * al + al * ga - be * (al + ga)); [ring|]. rewrite SL.
    transitivity (al * al + (al * ga + xD) - xD - be * be - be * de); [ring|]. rewrite T. unfold xD, xE. ring. }
  assert (Cc : xD * xD - al * al * xD + (ga - al) * (yB - al * xB) = xE * xE - be * be * xE + (de - be) * (yB - be * xB)).
  { apply ksub_eq0.
    transitivity (xD * (xD - al * al) + (al + ga) * (yB - al * xB) + - ((1 + 1) * al * (yB - al * xB))
      - (xE * (xE - be * be) + (be + de) * (yB - be * xB) + - ((1 + 1) * be * (yB - be * xB)))); [ring|].
    rewrite V1, V2, <- SL.
    transitivity (xD * (xD - (al * al - xA - xB)) - xE * (xE - (be * be - xB - xC)) + xB * (xA - xC - (al + ga) * (al - be))); [ring|].
    rewrite SA. unfold xD, xE. ring. }
  rewrite T, Cc, SL. ring.
Qed.

(** The norm of a line. *)
Lemma line_norm xA yA xB yB al x y : on (Pt xA yA) -> lin xA yA xB yB al -> on (Pt x y) ->
  ((y - yA) - al * (x - xA)) * ((- y - yA) - al * (x - xA)) = - ((x - xA) * (x - xB) * (x - (al * al - xA - xB))).
Proof.
  intros HA [A1 A2] H. cbn in HA, H. assert (EB : b = yA * yA - xA * xA * xA) by (rewrite HA; ring). rewrite EB in H.
  assert (E2 : yB = yA - al * (xA - xB)) by (rewrite <- A1; ring). rewrite E2 in A2.
  assert (E : xA * xA = al * (yA + (yA - al * (xA - xB))) - xA * xB - xB * xB) by (rewrite A2; ring).
  clear - H E. ring [H E].
Qed.
(** Two lines: the values of each at the three points of the other. *)
Lemma line_recip xA yA xB yB al xP yP xQ yQ m :
  let xD := al * al - xA - xB in let yD := al * (xB - xD) - yB in
  let xS := m * m - xP - xQ in let yS := m * (xQ - xS) - yQ in
  let l x y := (y - yB) - al * (x - xB) in let h x y := (y - yQ) - m * (x - xQ) in
  on (Pt xA yA) -> lin xA yA xB yB al -> on (Pt xP yP) -> lin xP yP xQ yQ m ->
  l xP yP * l xQ yQ * l xS (- yS) = - (h xA yA * h xB yB * h xD (- yD)).
Proof.
  intros xD yD xS yS l h HA [A1 A2] HP [P1 P2]. cbn in HA, HP.
  assert (EA : yA = yB + al * (xA - xB)) by (rewrite <- A1; ring).
  assert (EP : yP = yQ + m * (xP - xQ)) by (rewrite <- P1; ring).
  rewrite EA in A2, HA. rewrite EP in P2, HP.
  assert (E1 : xA * xA = al * (yB + al * (xA - xB) + yB) - xA * xB - xB * xB) by (rewrite A2; ring).
  assert (E2 : xP * xP = m * (yQ + m * (xP - xQ) + yQ) - xP * xQ - xQ * xQ) by (rewrite P2; ring).
  assert (HB : yB * yB = xB * xB * xB + b).
  { transitivity ((yB + al * (xA - xB)) * (yB + al * (xA - xB)) - (xA - xB) * (al * (yB + al * (xA - xB) + yB))); [ring|].
    rewrite A2, HA. ring. }
  assert (HQ : yQ * yQ = xQ * xQ * xQ + b).
  { transitivity ((yQ + m * (xP - xQ)) * (yQ + m * (xP - xQ)) - (xP - xQ) * (m * (yQ + m * (xP - xQ) + yQ))); [ring|].
    rewrite P2, HP. ring. }
  assert (EB : b = yB * yB - xB * xB * xB) by (rewrite HB; ring). rewrite EB in HQ.
  unfold l, h, yS, yD, xS, xD. rewrite EA, EP. clear - E1 E2 HQ. ring [E1 E2 HQ].
Qed.
End Lines.
