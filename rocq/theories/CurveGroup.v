(** The chord-and-tangent law is a commutative group (characteristic not 2 or 3, b <> 0). *)
From Coq Require Import ZArith List Bool Field Lia.
From Verif Require Import Algebra CurveSpec.
Import ListNotations.
Local Open Scope fld_scope.

Section Group.
Variable K : Fld.
Add Field gfield : (kth K).
Variable b : K.
Hypothesis two : (1 + 1 : K) <> 0.
Hypothesis three : (1 + 1 + 1 : K) <> 0.
Hypothesis bnz : b <> 0.
Notation on := (on_curve b).

(** Slope relation covering chords and tangents. *)
Definition lin (x1 y1 x2 y2 l : K) : Prop := y1 - y2 = l * (x1 - x2) /\ l * (y1 + y2) = x1 * x1 + x1 * x2 + x2 * x2.

Lemma dbl0 (y : K) : y + y = 0 -> y = 0.
Proof. intros H. assert (E : (1 + 1) * y = 0) by (rewrite <- H; ring). apply kmul_eq0 in E. tauto. Qed.
Lemma trp0 (y : K) : y + y + y = 0 -> y = 0.
Proof. intros H. assert (E : (1 + 1 + 1) * y = 0) by (rewrite <- H; ring). apply kmul_eq0 in E. tauto. Qed.
Lemma subn (x y : K) : x <> y -> x - y <> 0. Proof. intros N H. apply N, ksub_eq0, H. Qed.

Lemma lin_exists x1 y1 x2 y2 : on (Pt x1 y1) -> on (Pt x2 y2) -> ~ (x1 = x2 /\ y1 = - y2) ->
  exists l, lin x1 y1 x2 y2 l.
Proof.
  intros H1 H2 N. cbn in H1, H2. destruct (kdec K x1 x2) as [E|NE].
  - subst x2. assert (y1 = y2) as ->.
    { assert (E : (y1 - y2) * (y1 + y2) = 0) by (transitivity (y1 * y1 - y2 * y2); [ring|rewrite H1, H2; ring]).
      apply kmul_eq0 in E as [E|E]; [apply ksub_eq0, E|]. exfalso. apply N. split; [reflexivity|].
      transitivity ((y1 + y2) - y2); [ring|rewrite E; ring]. }
    assert (Y : y2 + y2 <> 0). { intros E. apply dbl0 in E. apply N. split; [reflexivity|rewrite E; ring]. }
    exists ((x1 * x1 + x1 * x1 + x1 * x1) / (y2 + y2)). split; field; assumption.
  - pose proof (subn _ _ NE) as D. exists ((y1 - y2) / (x1 - x2)). split; [field; assumption|].
    apply (kmul_cancel_l K (x1 - x2)); [exact D|].
    transitivity (y1 * y1 - y2 * y2); [field; assumption|]. rewrite H1, H2. ring.
Qed.
Lemma lin_not_opp x1 y1 x2 y2 l : on (Pt x1 y1) -> lin x1 y1 x2 y2 l -> ~ (x1 = x2 /\ y1 = - y2).
Proof.
  intros H [L1 L2] [E1 E2]. cbn in H. subst x2.
  assert (Y : y1 = 0).
  { apply dbl0. transitivity (y1 - y2); [rewrite E2 at 2; ring|rewrite L1; ring]. }
  assert (X : x1 = 0).
  { apply (ksq_eq0 K), trp0. rewrite <- L2. rewrite E2. ring. }
  apply bnz. transitivity (y1 * y1); [rewrite H, X; ring|rewrite Y; ring].
Qed.
Lemma lin_unique x1 y1 x2 y2 l m : ~ (x1 = x2 /\ y1 = - y2) -> lin x1 y1 x2 y2 l -> lin x1 y1 x2 y2 m -> l = m.
Proof.
  intros N [L1 L2] [M1 M2]. destruct (kdec K x1 x2) as [E|NE].
  - assert (S : y1 + y2 <> 0). { intros S. apply N. split; [exact E|]. transitivity ((y1 + y2) - y2); [ring|rewrite S; ring]. }
    apply (kmul_cancel_l K (y1 + y2)); [exact S|]. transitivity (l * (y1 + y2)); [ring|]. rewrite L2, <- M2. ring.
  - apply (kmul_cancel_l K (x1 - x2)); [apply subn, NE|]. transitivity (l * (x1 - x2)); [ring|]. rewrite <- L1, M1. ring.
Qed.
Definition thx (l x1 x2 : K) : K := l * l - x1 - x2.
Definition thy (l x1 y1 x3 : K) : K := l * (x1 - x3) - y1.
Lemma add_lin x1 y1 x2 y2 l : on (Pt x1 y1) -> on (Pt x2 y2) -> lin x1 y1 x2 y2 l ->
  pt_add (Pt x1 y1) (Pt x2 y2) = Pt (thx l x1 x2) (thy l x1 y1 (thx l x1 x2)).
Proof.
  intros H1 H2 L. pose proof (lin_not_opp _ _ _ _ _ H1 L) as N. unfold pt_add.
  assert (EB : keqb x1 x2 && keqb y1 (- y2) = false).
  { destruct (keqb_spec K x1 x2), (keqb_spec K y1 (- y2)); try reflexivity. tauto. }
  rewrite EB. cbv zeta.
  assert (EL : (if keqb x1 x2 then (x1 * x1 + x1 * x1 + x1 * x1) / (y1 + y1) else (y1 - y2) / (x1 - x2)) = l); [|rewrite EL; reflexivity].
  apply (lin_unique x1 y1 x2 y2); [exact N| |exact L]. destruct L as [L1 L2].
  destruct (keqb_spec K x1 x2) as [E|NE].
  - subst x2. assert (E : y1 = y2). { apply ksub_eq0. rewrite L1. ring. } subst y2.
    assert (Y : y1 + y1 <> 0). { intros E. apply dbl0 in E. apply N. split; [reflexivity|rewrite E; ring]. }
    split; field; assumption.
  - pose proof (subn _ _ NE) as D. split; [field; assumption|].
    apply (kmul_cancel_l K (x1 - x2)); [exact D|].
    transitivity (y1 * y1 - y2 * y2); [field; assumption|]. cbn in H1, H2. rewrite H1, H2. ring.
Qed.
Lemma lin_sym x1 y1 x2 y2 l : lin x1 y1 x2 y2 l -> lin x2 y2 x1 y1 l.
Proof. intros [A B]. split; [transitivity (- (y1 - y2)); [ring|rewrite A; ring]|]. transitivity (l * (y1 + y2)); [ring|rewrite B; ring]. Qed.
Lemma lin_third x1 y1 x2 y2 l : lin x1 y1 x2 y2 l -> let x3 := thx l x1 x2 in lin x1 y1 x3 (- thy l x1 y1 x3) l.
Proof.
  intros [A B] x3. unfold thy. split; [ring|].
  assert (Y : y2 = y1 - l * (x1 - x2)) by (rewrite <- A; ring). rewrite Y in B.
  transitivity (l * (y1 + (y1 - l * (x1 - x2))) + l * l * (x3 - x2)); [ring|]. rewrite B. unfold x3, thx. ring.
Qed.
Lemma lin_on x1 y1 x3 y3 l : on (Pt x1 y1) -> lin x1 y1 x3 y3 l -> on (Pt x3 y3).
Proof.
  cbn. intros H [A B]. 
  assert (E : (x1 - x3) * (l * (y1 + y3)) = (x1 - x3) * (x1 * x1 + x1 * x3 + x3 * x3)) by (rewrite B; reflexivity).
  assert (E2 : y1 * y1 - y3 * y3 = x1 * x1 * x1 - x3 * x3 * x3).
  { transitivity ((y1 - y3) * (y1 + y3)); [ring|]. rewrite A. transitivity ((x1 - x3) * (l * (y1 + y3))); [ring|]. rewrite E. ring. }
  transitivity (y1 * y1 - (y1 * y1 - y3 * y3)); [ring|]. rewrite E2, H. ring.
Qed.
Lemma lin_neg x1 y1 x2 y2 l : lin x1 y1 x2 y2 l -> lin x1 (- y1) x2 (- y2) (- l).
Proof. intros [A B]. split; [transitivity (- (y1 - y2)); [ring|rewrite A; ring]|]. rewrite <- B. ring. Qed.
Lemma on_neg P : on P -> on (pt_neg P).
Proof. destruct P as [|x y]; cbn; [auto|]. intros <-. ring. Qed.
Lemma neg_neg (P : point K) : pt_neg (pt_neg P) = P.
Proof. destruct P as [|x y]; cbn; [auto|]. f_equal. ring. Qed.

Lemma pt_inf_dec (P : point K) : {P = Inf} + {P <> Inf}. Proof. destruct P; [left|right]; congruence. Qed.
Lemma pt_eq_dec (P Q : point K) : {P = Q} + {P <> Q}.
Proof.
  destruct P as [|x y], Q as [|x' y']; try (left; reflexivity); try (right; congruence).
  destruct (kdec K x x'), (kdec K y y'); subst; [left; reflexivity|right; congruence|right; congruence|right; congruence].
Qed.
Lemma add_inf_l (P : point K) : pt_add Inf P = P. Proof. reflexivity. Qed.
Lemma add_inf_r (P : point K) : pt_add P Inf = P. Proof. destruct P; reflexivity. Qed.
Lemma add_neg (P : point K) : pt_add P (pt_neg P) = Inf.
Proof.
  destruct P as [|x y]; [reflexivity|]. cbn. rewrite keqb_refl. replace (- - y) with y by ring. rewrite keqb_refl. reflexivity.
Qed.
Lemma add_neg_l (P : point K) : pt_add (pt_neg P) P = Inf.
Proof. rewrite <- (neg_neg P) at 2. apply add_neg. Qed.
(** Every sum of finite, non-opposite points is a third intersection. *)
Lemma add_cases x1 y1 x2 y2 : on (Pt x1 y1) -> on (Pt x2 y2) ->
  (x2 = x1 /\ y2 = - y1 /\ pt_add (Pt x1 y1) (Pt x2 y2) = Inf) \/
  (exists l, lin x1 y1 x2 y2 l /\ pt_add (Pt x1 y1) (Pt x2 y2) = Pt (thx l x1 x2) (thy l x1 y1 (thx l x1 x2))).
Proof.
  intros H1 H2. destruct (kdec K x1 x2) as [E|NE]; [destruct (kdec K y1 (- y2)) as [E2|NE2]|].
  - left. subst. split; [reflexivity|]. split; [ring|]. cbn. rewrite !keqb_refl. reflexivity.
  - right. destruct (lin_exists x1 y1 x2 y2 H1 H2) as [l L]; [tauto|]. exists l. split; [exact L|apply add_lin; assumption].
  - right. destruct (lin_exists x1 y1 x2 y2 H1 H2) as [l L]; [tauto|]. exists l. split; [exact L|apply add_lin; assumption].
Qed.
Lemma add_on P Q : on P -> on Q -> on (pt_add P Q).
Proof.
  destruct P as [|x1 y1]; [intros _ H; exact H|]. destruct Q as [|x2 y2]; [intros H _; exact H|]. intros H1 H2.
  destruct (add_cases _ _ _ _ H1 H2) as [(_ & _ & ->)|(l & L & ->)]; [exact I|].
  apply lin_third in L. apply (lin_on _ _ _ _ _ H1) in L. apply on_neg in L. cbn [pt_neg] in L.
  replace (thy l x1 y1 (thx l x1 x2)) with (- - thy l x1 y1 (thx l x1 x2)) by ring. exact L.
Qed.
Lemma add_comm P Q : on P -> on Q -> pt_add P Q = pt_add Q P.
Proof.
  destruct P as [|x1 y1]; [rewrite add_inf_r; reflexivity|]. destruct Q as [|x2 y2]; [reflexivity|]. intros H1 H2.
  destruct (add_cases _ _ _ _ H1 H2) as [(-> & -> & ->)|(l & L & ->)].
  - change (Pt x1 (- y1)) with (pt_neg (Pt x1 y1)). rewrite add_neg_l. reflexivity.
  - rewrite (add_lin x2 y2 x1 y1 l); [|assumption..|apply lin_sym, L]. destruct L as [A _].
    replace (thx l x2 x1) with (thx l x1 x2) by (unfold thx; ring). f_equal. unfold thy.
    apply ksub_eq0. transitivity (l * (x1 - x2) - (y1 - y2)); [ring|rewrite A; ring].
Qed.
Lemma neg_add P Q : on P -> on Q -> pt_neg (pt_add P Q) = pt_add (pt_neg P) (pt_neg Q).
Proof.
  destruct P as [|x1 y1]; [reflexivity|]. destruct Q as [|x2 y2]; [reflexivity|]. intros H1 H2.
  destruct (add_cases _ _ _ _ H1 H2) as [(-> & -> & ->)|(l & L & ->)].
  - cbn [pt_neg]. change (Pt x1 (- - y1)) with (pt_neg (Pt x1 (- y1))). rewrite add_neg. reflexivity.
  - cbn [pt_neg]. rewrite (add_lin x1 (- y1) x2 (- y2) (- l)); [|apply (on_neg _ H1)|apply (on_neg _ H2)|apply lin_neg, L].
    replace (thx (- l) x1 x2) with (thx l x1 x2) by (unfold thx; ring). f_equal. unfold thy. ring.
Qed.
(** Cancellation. *)
Lemma cancel P Q : on P -> on Q -> pt_add (pt_neg P) (pt_add P Q) = Q.
Proof.
  destruct P as [|x1 y1]; [reflexivity|]. destruct Q as [|x2 y2]; [intros; rewrite add_inf_r; apply add_neg_l|]. intros H1 H2.
  pose proof (add_on _ _ H1 H2) as H3.
  destruct (add_cases _ _ _ _ H1 H2) as [(-> & -> & ->)|(l & L & E)]; [reflexivity|]. rewrite E in H3 |- *. cbn [pt_neg].
  pose proof (lin_neg _ _ _ _ _ (lin_third _ _ _ _ _ L)) as L3.
  replace (- - thy l x1 y1 (thx l x1 x2)) with (thy l x1 y1 (thx l x1 x2)) in L3 by ring.
  rewrite (add_lin _ _ _ _ _ (on_neg _ H1) H3 L3). destruct L as [A _].
  replace (thx (- l) x1 (thx l x1 x2)) with x2 by (unfold thx; ring). f_equal. unfold thy.
  apply ksub_eq0. transitivity (- l * (x1 - x2) + (y1 - y2)); [ring|rewrite A; ring].
Qed.

(** The generic identities. *)
Lemma assoc_x x y l m p r : let xA := thx l p x in let xB := thx m x r in
  let y1 := y + l * (p - x) in let y3 := y + m * (r - x) in
  let yA := thy l p y1 xA in let yB := thy m x y xB in
  lin p y1 x y l -> lin x y r y3 m -> xA - r <> 0 -> p - xB <> 0 ->
  let n := (yA - y3) / (xA - r) in let k := (y1 - yB) / (p - xB) in
  thx n xA r = thx k p xB /\ thy n xA yA (thx n xA r) = thy k p y1 (thx k p xB).
Proof.
  intros xA xB y1 y3 yA yB [_ L] [_ M] D1 D2 n k. unfold y1, y3 in L, M.
  assert (E1 : p * p = l * (y + y) + l * l * (p - x) - p * x - x * x).
  { transitivity (p * p + p * x + x * x - p * x - x * x); [ring|]. rewrite <- L. ring. }
  assert (E2 : r * r = m * (y + y) + m * m * (r - x) - r * x - x * x).
  { transitivity (x * x + x * r + r * r - r * x - x * x); [ring|]. rewrite <- M. ring. }
  clear L M. assert (EX : thx n xA r = thx k p xB).
  { apply ksub_eq0. 
    unfold n, k, yA, yB, y1, y3, xA, xB, thy, thx in *. field [E1 E2]. split; assumption. }
  split; [exact EX|]. rewrite <- EX. 
  apply ksub_eq0. unfold n, k, yA, yB, y1, y3, xA, xB, thy, thx in *. field [E1 E2]. split; assumption.
Qed.

(** 2 R = (R - Q) + (R + Q). *)
Lemma kneg0 (y : K) : y = 0 -> - y = 0. Proof. intros ->. ring. Qed.
Lemma four (y : K) : (1 + 1) * (1 + 1) * y = 0 -> y = 0.
Proof. intros H. apply kmul_eq0 in H as [H|H]; [|exact H]. apply (ksq_eq0 K) in H. contradiction. Qed.
Ltac nz := repeat split; repeat first [assumption | apply kmul_neq0].
Lemma twice_x x y r s : s * s = r * r * r - x * x * x + y * y -> r - x <> 0 -> s <> 0 ->
  let l := (s + y) / (r - x) in let m := (s - y) / (r - x) in
  let p := thx l r x in let q := thx m r x in
  let y1 := thy l r s p in let y2 := thy m r s q in
  let n := (r * r + r * r + r * r) / (s + s) in
  (p - q <> 0 -> let k := (y1 - y2) / (p - q) in thx n r r = thx k p q /\ thy n r s (thx n r r) = thy k p y1 (thx k p q)) /\
  (p - q = 0 -> y = 0 /\ (x <> 0 -> y1 = y2 /\ y1 <> 0 /\ let k := (p * p + p * p + p * p) / (y1 + y1) in thx n r r = thx k p p /\ thy n r s (thx n r r) = thy k p y1 (thx k p p))).
Proof.
  intros E R S l m p q y1 y2 n.
  assert (S2 : s + s <> 0) by (intros H; apply dbl0 in H; contradiction).
  assert (D : p - q = (1 + 1) * (1 + 1) * (y * s) / ((r - x) * (r - x))).
  { unfold p, q, thx, l, m. field. exact R. }
  split.
  - intros N k. assert (Y : y <> 0). { intros Y. apply N. rewrite D, Y. field. exact R. }
    assert (K1 : k = (y1 - y2) * ((r - x) * (r - x)) / ((1 + 1) * (1 + 1) * (y * s))).
    { unfold k. rewrite D. field. nz. }
    assert (EX : thx n r r = thx k p q).
    { apply ksub_eq0. rewrite K1. unfold y1, y2, n, p, q, l, m, thy, thx. field [E]. nz. }
    split; [exact EX|]. rewrite <- EX. apply ksub_eq0. rewrite K1. unfold y1, y2, n, p, q, l, m, thy, thx. field [E]. nz.
  - intros N. assert (Y : y = 0).
    { assert (H : (1 + 1) * (1 + 1) * (y * s) = 0).
      { transitivity (((r - x) * (r - x)) * (p - q)); [rewrite D; field; exact R|rewrite N; ring]. }
      apply four, kmul_eq0 in H as [H|H]; [exact H|contradiction]. }
    split; [exact Y|]. intros X. assert (Y12 : y1 = y2).
    { unfold y1, y2, p, q, l, m. rewrite Y. replace (s - 0) with (s + 0) by ring. reflexivity. }
    split; [exact Y12|]. subst y. clear m q y2 D N Y12.
    assert (W1 : p = (r * x + x * x + x * x) / (r - x)). { unfold p, l, thx. field [E]. exact R. }
    assert (W : y1 = - (x * x + x * x + x * x) * s / ((r - x) * (r - x))).
    { unfold y1, p, l, thy, thx. field [E]. exact R. }
    assert (NW : (x * x + x * x + x * x) * s <> 0).
    { intros H. assert (H' : (1 + 1 + 1) * (x * x * s) = 0) by (rewrite <- H; ring). revert H'. nz. }
    assert (Y1 : y1 <> 0).
    { intros H. apply NW. rewrite W in H. transitivity (- (- (x * x + x * x + x * x) * s / ((r - x) * (r - x))) * ((r - x) * (r - x))); [field; nz|].
      rewrite H. ring. }
    split; [exact Y1|]. intros k. assert (K1 : k = - (r + x + x) * (r + x + x) / (s + s)).
    { unfold k. rewrite W, W1. field. nz. intros H.
      apply NW. apply dbl0. rewrite <- (kneg0 _ H). ring. }
    assert (EX : thx n r r = thx k p p).
    { apply ksub_eq0. rewrite K1, W1. unfold n, thx. field [E]. nz. }
    split; [exact EX|]. rewrite <- EX. apply ksub_eq0. rewrite K1, W, W1. unfold n, thy, thx. field [E]. nz.
Qed.

Lemma chord_lin x1 y1 x2 y2 : on (Pt x1 y1) -> on (Pt x2 y2) -> x1 - x2 <> 0 -> lin x1 y1 x2 y2 ((y1 - y2) / (x1 - x2)).
Proof.
  cbn. intros H1 H2 D. split; [field; exact D|]. apply (kmul_cancel_l K (x1 - x2)); [exact D|].
  transitivity (y1 * y1 - y2 * y2); [field; exact D|]. rewrite H1, H2. ring.
Qed.
Lemma tan_lin x1 y1 : y1 <> 0 -> lin x1 y1 x1 y1 ((x1 * x1 + x1 * x1 + x1 * x1) / (y1 + y1)).
Proof. intros Y. assert (y1 + y1 <> 0) by (intros H; apply dbl0 in H; contradiction). split; field; assumption. Qed.
Lemma same_x x1 y1 y2 : on (Pt x1 y1) -> on (Pt x1 y2) -> Pt x1 y1 = Pt x1 y2 \/ Pt x1 y1 = pt_neg (Pt x1 y2).
Proof.
  cbn. intros H1 H2. assert (E : (y1 - y2) * (y1 + y2) = 0) by (transitivity (y1 * y1 - y2 * y2); [ring|rewrite H1, H2; ring]).
  apply kmul_eq0 in E as [E|E]; [left; apply (proj1 (ksub_eq0 K _ _)) in E; rewrite E; reflexivity|right].
  f_equal. transitivity ((y1 + y2) - y2); [ring|rewrite E; ring].
Qed.
Lemma opp_self x : on (Pt x 0) -> x <> 0.
Proof. cbn. intros H E. apply bnz. transitivity (x * x * x + b); [rewrite E; ring|rewrite <- H; ring]. Qed.

Lemma assoc_twice Q R : on Q -> on R -> pt_add (pt_add R (pt_neg Q)) (pt_add R Q) = pt_add R R.
Proof.
  intros HQ HR. destruct Q as [|x y]; [cbn [pt_neg]; rewrite add_inf_r; reflexivity|].
  destruct R as [|r s]; [rewrite !add_inf_l; apply add_neg_l|].
  destruct (kdec K r x) as [E|NE].
  - subst x. destruct (same_x _ _ _ HR HQ) as [E|E].
    + rewrite <- E, add_neg. reflexivity.
    + rewrite <- E. rewrite <- (neg_neg (Pt r y)), <- E. rewrite add_neg, add_inf_r. reflexivity.
  - pose proof (subn _ _ NE) as D.
    destruct (kdec K s 0) as [S|S].
    { assert (ER : pt_neg (Pt r s) = Pt r s) by (rewrite S; cbn; f_equal; ring).
      rewrite <- ER at 1. rewrite <- neg_add by assumption. rewrite add_neg_l. rewrite <- ER at 2. rewrite add_neg. reflexivity. }
    assert (E : s * s = r * r * r - x * x * x + y * y) by (cbn in HQ, HR; rewrite HQ, HR; ring).
    destruct (twice_x x y r s E D S) as [T1 T2]. revert T1 T2.
    replace ((s + y) / (r - x)) with ((s - - y) / (r - x)) by (f_equal; ring).
    set (l := (s - - y) / (r - x)). set (m := (s - y) / (r - x)). set (p := thx l r x). set (q := thx m r x).
    set (y1 := thy l r s p). set (y2 := thy m r s q). set (n := (r * r + r * r + r * r) / (s + s)). cbv zeta. intros T1 T2.
    pose proof (add_on _ _ HR (on_neg _ HQ)) as HP. pose proof (add_on _ _ HR HQ) as HB. revert HP HB. cbn [pt_neg].
    rewrite (add_lin r s x (- y) l HR (on_neg _ HQ)) by (apply chord_lin; [exact HR|exact (on_neg _ HQ)|exact D]).
    rewrite (add_lin r s x y m HR HQ) by (apply chord_lin; assumption).
    rewrite (add_lin r s r s n HR HR) by (apply tan_lin, S).
    fold p q. fold y1 y2. intros HP HB. destruct (kdec K (p - q) 0) as [Z|Z].
    + destruct (T2 Z) as [Y T]. assert (X : x <> 0) by (subst y; apply (opp_self x HQ)).
      destruct (T X) as (E2 & Y1 & T3 & T4). rewrite <- E2 in *. apply (proj1 (ksub_eq0 K _ _)) in Z. rewrite <- Z in *.
      rewrite T3, T4 at 1. rewrite <- T3. rewrite (add_lin _ _ _ _ _ HP HP (tan_lin p y1 Y1)). rewrite <- T3 at 1. f_equal; congruence.
    + destruct (T1 Z) as [T3 T4]. rewrite (add_lin _ _ _ _ _ HP HB (chord_lin _ _ _ _ HP HB Z)). f_equal; congruence.
Qed.

Lemma add_eq_inf P Q : on P -> on Q -> pt_add P Q = Inf -> Q = pt_neg P.
Proof. intros HP HQ E. rewrite <- (cancel P Q HP HQ), E, add_inf_r. reflexivity. Qed.
Lemma cancel2 P Q : on P -> on Q -> pt_add (pt_add P Q) (pt_neg Q) = P.
Proof.
  intros HP HQ. rewrite add_comm; [|apply add_on; assumption|apply on_neg; assumption]. rewrite (add_comm P Q HP HQ). apply cancel; assumption.
Qed.
Theorem add_assoc P Q R : on P -> on Q -> on R -> pt_add (pt_add P Q) R = pt_add P (pt_add Q R).
Proof.
  intros HP HQ HR.
  pose proof (add_on _ _ HP HQ) as HA. pose proof (add_on _ _ HQ HR) as HB.
  destruct (pt_eq_dec (pt_add P Q) R) as [ER|NR].
  { rewrite ER. rewrite <- (assoc_twice Q R HQ HR). rewrite <- ER at 1. rewrite cancel2 by assumption.
    rewrite (add_comm R Q HR HQ). reflexivity. }
  destruct (pt_eq_dec (pt_add Q R) P) as [EP|NP].
  { rewrite EP. rewrite <- (assoc_twice Q P HQ HP). rewrite <- EP at 2.
    rewrite (add_comm Q R HQ HR). rewrite cancel2 by assumption.
    apply add_comm; assumption. }
  destruct (pt_eq_dec (pt_neg (pt_add P Q)) R) as [ER|NR'].
  { rewrite <- ER, add_neg. rewrite neg_add by assumption. rewrite (add_comm (pt_neg P)) by (apply on_neg; assumption).
    rewrite <- (neg_neg Q) at 1. rewrite cancel by (apply on_neg; assumption). rewrite add_neg. reflexivity. }
  destruct (pt_eq_dec (pt_neg (pt_add Q R)) P) as [EP|NP'].
  { rewrite <- EP, add_neg_l. rewrite neg_add by assumption.
    rewrite (add_comm (pt_neg Q)) by (apply on_neg; assumption).
    rewrite <- (neg_neg Q) at 2. rewrite cancel2 by (apply on_neg; assumption). apply add_neg_l. }
  destruct P as [|p y1]; [reflexivity|]. destruct Q as [|x y]; [reflexivity|]. destruct R as [|r y3]; [rewrite !add_inf_r; reflexivity|].
  destruct (add_cases _ _ _ _ HP HQ) as [(-> & -> & EA)|(l & L & EA)].
  { rewrite EA. rewrite add_inf_l. change (Pt p (- y1)) with (pt_neg (Pt p y1)).
    rewrite <- (neg_neg (Pt p y1)) at 1. symmetry. apply cancel; [apply (on_neg _ HP)|exact HR]. }
  destruct (add_cases _ _ _ _ HQ HR) as [(-> & -> & EB)|(m & M & EB)].
  { rewrite EB, add_inf_r. apply cancel2; assumption. }
  rewrite EA, EB in *.
  assert (Y1 : y1 = y + l * (p - x)) by (rewrite <- (proj1 L); ring).
  assert (Y3 : y3 = y + m * (r - x)). { transitivity (y - m * (x - r)); [rewrite <- (proj1 M); ring|ring]. }
  subst y1 y3.
  assert (D1 : thx l p x - r <> 0).
  { intros D. apply (proj1 (ksub_eq0 K _ _)) in D. rewrite D in *. destruct (same_x _ _ _ HA HR) as [E|E]; [contradiction|]. apply NR'. rewrite E. apply neg_neg. }
  assert (D2 : p - thx m x r <> 0).
  { intros D. apply (proj1 (ksub_eq0 K _ _)) in D. rewrite <- D in *. destruct (same_x _ _ _ HB HP) as [E|E]; [contradiction|]. apply NP'. rewrite E. apply neg_neg. }
  destruct (assoc_x x y l m p r L M D1 D2) as [T1 T2].
  rewrite (add_lin _ _ _ _ _ HA HR (chord_lin _ _ _ _ HA HR D1)).
  rewrite (add_lin _ _ _ _ _ HP HB (chord_lin _ _ _ _ HP HB D2)).
  f_equal; assumption.
Qed.
End Group.
