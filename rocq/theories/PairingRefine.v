(** The implemented Miller loop refines the textbook one, up to a factor from Fq2. *)
From Coq Require Import ZArith List Bool Lia Field Ring.
From Verif Require Import LimbModel LimbProofs FieldModel FieldSpec FieldProofs DigitProofs PowProofs FieldMore Primes
  Algebra ExtModel ExtSpec ExtProofs ExtParams RingPow ExtFrob FinalExp PairingModel PairingSpec PairingProofs.
Import ListNotations.

(** ** Jacobian formulas over an abstract field; [w] scales the twist. *)
Section Abstract.
Variable K : Fld.
Local Open Scope fld_scope.
Add Field kf : (kth K).
Variables (w px py : K).
Hypothesis W0 : w <> 0.
Notation two := (1 + 1). Notation three := (1 + 1 + 1).
Definition aff (X Y Z : K) : pt K := (X * w * w / (Z * Z), Y * w * w * w / (Z * Z * Z)).
Lemma mul3 (a b c : K) : a <> 0 -> b <> 0 -> c <> 0 -> a * b * c <> 0.
Proof. intros. repeat apply kmul_neq0; assumption. Qed.

Lemma dbl_abs X Y Z l : Z <> 0 -> tangent K (aff X Y Z) = Some l ->
  Y + Y <> 0 /\
  (two * two * Y * Z * Z * Z) * line_at K l (aff X Y Z) (px, py) =
     (two * two * Y * Z * Z * Z) * py + (- (two * three * X * X * Z * Z)) * px * w + (two * three * X * X * X - two * two * Y * Y) * (w * w * w) /\
  third K l (aff X Y Z) (aff X Y Z) =
    aff (three * three * X * X * X * X - two * two * two * X * Y * Y)
        (three * X * X * (two * two * X * Y * Y - (three * three * X * X * X * X - two * two * two * X * Y * Y)) - two * two * two * Y * Y * Y * Y)
        (two * Y * Z).
Proof.
  intros Z0. unfold tangent, aff. destruct (keqb_spec K (Y * w * w * w / (Z * Z * Z) + Y * w * w * w / (Z * Z * Z)) 0) as [|N]; [discriminate|].
  intros E. injection E as <-.
  assert (YN : Y <> 0) by (intros ->; apply N; field; exact Z0).
  assert (T2 : two <> (0 : K)).
  { intros T. apply N. transitivity (two * (Y * w * w * w / (Z * Z * Z))); [field; exact Z0|]. rewrite T. ring. }
  assert (YY : Y + Y <> 0) by (intros E; apply (kmul_neq0 K two Y T2 YN); rewrite <- E; ring).
  split; [exact YY|].
  assert (EL : forall x y : K, (x * x + x * x + x * x) / (y + y) = three * x * x / (two * y)) by (intros; f_equal; ring).
  rewrite EL.
  unfold line_at, third. cbn [fst snd]. split; [field|f_equal; field]; auto 10.
Qed.
Lemma add_abs X Y Z x2 y2 l : Z <> 0 -> chord K (aff X Y Z) (aff x2 y2 1) = Some l ->
  forall H R, H = x2 * Z * Z - X -> R = y2 * Z * Z * Z - Y ->
  H <> 0 /\
  (two * Z * H) * line_at K l (aff X Y Z) (px, py) =
     (two * Z * H) * py + (- (two * R)) * px * w + (two * R * x2 - two * y2 * Z * H) * (w * w * w) /\
  (two <> (0 : K) -> third K l (aff X Y Z) (aff x2 y2 1) =
    aff (two * two * R * R - two * two * H * H * H - two * two * two * H * H * X)
        (two * R * (two * two * H * H * X - (two * two * R * R - two * two * H * H * H - two * two * two * H * H * X)) - two * two * two * H * H * H * Y)
        (two * Z * H)).
Proof.
  intros Z0. unfold chord, aff. destruct (keqb_spec K (x2 * w * w / (1 * 1) - X * w * w / (Z * Z)) 0) as [|N]; [discriminate|].
  intros E. injection E as <-. intros H R HE RE.
  assert (O := k1_neq0 K).
  assert (HN : H <> 0).
  { intros E. apply N. transitivity (H * w * w / (Z * Z)); [rewrite HE; field; auto|]. rewrite E. field. exact Z0. }
  split; [exact HN|].
  assert (EL : (y2 * w * w * w / (1 * 1 * 1) - Y * w * w * w / (Z * Z * Z)) / (x2 * w * w / (1 * 1) - X * w * w / (Z * Z)) = w * R / (Z * H)).
  { rewrite HE in *; rewrite RE. field. repeat split; auto.
    intros E. apply (mul3 _ w w (kmul_neq0 K _ _ HN Z0) W0 W0).
    transitivity (Z * (x2 * w * w * (Z * Z) - X * w * w) ); [ring|rewrite E; ring]. }
  rewrite EL. assert (X2 : x2 = (H + X) / (Z * Z)) by (rewrite HE; field; exact Z0).
  assert (Y2 : y2 = (R + Y) / (Z * Z * Z)) by (rewrite RE; field; exact Z0).
  clear N EL HE RE. subst x2 y2.
  unfold line_at, third. cbn [fst snd]. split; [field; auto|]. intros T2. f_equal; field; auto 10.
Qed.
End Abstract.

(** ** The refinement, for any homomorphism from Fq2 into a field. *)
Section Refine.
Variables (F : Fld) (K : Fld) (io : q2 F -> K) (ib : F -> K) (w : K).
Hypothesis W0 : w <> k0.
Hypothesis io_mul : forall a b, io (q2_mul F a b) = kmul (io a) (io b).
Hypothesis io_add : forall a b, io (q2_add F a b) = kadd (io a) (io b).
Hypothesis io_1 : io (q2_1 F) = k1.
Hypothesis io_inj : forall a, io a = k0 -> a = q2_0 F.
Hypothesis io_two : (kadd k1 k1 : K) <> k0.
Variable m12 : q12 F -> K.
Hypothesis m12_mul : forall a b, m12 (q12_mul F a b) = kmul (m12 a) (m12 b).
Hypothesis m12_1 : m12 (q12_1 F) = k1.
Hypothesis m12_line : forall a b c px py, m12 (lineval F (a, b, c) (px, py)) =
  kadd (kadd (kmul (io a) (ib py)) (kmul (kmul (io b) (ib px)) w)) (kmul (io c) (kmul (kmul w w) w)).
Add Field kfr : (kth K).
Add Ring ring2r : (q2_ring F).
Local Open Scope fld_scope.
Lemma io_0 : io (q2_0 F) = 0.
Proof.
  assert (E : io (q2_0 F) + io (q2_0 F) = io (q2_0 F)) by (rewrite <- io_add; f_equal; ring).
  transitivity (io (q2_0 F) + io (q2_0 F) - io (q2_0 F)); [ring|rewrite E; ring].
Qed.
Lemma io_neg a : io (q2_neg F a) = - io a.
Proof.
  assert (E : io (q2_neg F a) + io a = 0) by (rewrite <- io_add, <- io_0; f_equal; ring).
  transitivity (io (q2_neg F a) + io a - io a); [ring|rewrite E; ring].
Qed.
Lemma io_sub a b : io (q2_sub F a b) = io a - io b.
Proof. replace (q2_sub F a b) with (q2_add F a (q2_neg F b)) by ring. rewrite io_add, io_neg. ring. Qed.
Lemma io_sq a : io (q2_sq F a) = io a * io a. Proof. rewrite q2_sq_mul. apply io_mul. Qed.
Lemma io_dbl a : io (q2_dbl F a) = io a + io a. Proof. rewrite q2_dbl_add. apply io_add. Qed.
Ltac push := rewrite ?io_sub, ?io_neg, ?io_dbl, ?io_sq, ?io_mul, ?io_add;
  repeat rewrite ?io_sub, ?io_neg, ?io_dbl, ?io_sq, ?io_mul, ?io_add.
Variables (px py : F).
Hypothesis m12_nz : forall a b c, a <> q2_0 F -> m12 (lineval F (a, b, c) (px, py)) <> k0.
Let P : pt K := (ib px, ib py).
Definition affj (t : jac F) : pt K := aff K w (io (jx F t)) (io (jy F t)) (io (jz F t)).
Definition affq (x y : q2 F) : pt K := aff K w (io x) (io y) 1.
Definition fin (t : jac F) : Prop := jz F t <> q2_0 F.
Lemma fin_io t : fin t -> io (jz F t) <> 0. Proof. intros H E. apply H, io_inj, E. Qed.
Lemma io_neq a : io a <> 0 -> a <> q2_0 F. Proof. intros H ->. apply H, io_0. Qed.

Lemma line_nz c v : m12 (lineval F c (px, py)) <> 0 -> (exists s, io s <> 0 /\ m12 (lineval F c (px, py)) = io s * v) -> v <> 0 /\ exists s, io s <> 0 /\ m12 (lineval F c (px, py)) = io s * v.
Proof. intros N (s & S & E). split; [|exists s; split; assumption]. intros ->. apply N. rewrite E. ring. Qed.
Lemma dbl_refine t l : fin t -> tangent K (affj t) = Some l ->
  let '(t', c) := double_eval F t in
  fin t' /\ third K l (affj t) (affj t) = affj t' /\
  line_at K l (affj t) P <> 0 /\ exists s, io s <> 0 /\ m12 (lineval F c (px, py)) = io s * line_at K l (affj t) P.
Proof.
  intros FT HL. destruct t as [X Y Z]. unfold affj in *. cbn [jx jy jz] in *. pose proof (fin_io _ FT) as Z0. cbn [jz] in Z0.
  destruct (dbl_abs K w (ib px) (ib py) W0 _ _ _ _ Z0 HL) as (Y2 & EL & E3).
  cbv beta iota zeta delta [double_eval]. cbn [jx jy jz].
  assert (YN : io Y <> 0) by (intros E; apply Y2; rewrite E; ring).
  split; [|split].
  - unfold fin. cbn [jz]. apply io_neq. push. intros E. apply (mul3 K _ _ _ io_two YN Z0). rewrite <- E. ring.
  - rewrite E3. unfold affj. cbn [jx jy jz]. f_equal; push; ring.
  - apply line_nz.
    { apply m12_nz, io_neq. push. intros E.
      apply (mul3 K _ _ _ io_two (mul3 K _ _ _ io_two YN Z0) (kmul_neq0 K _ _ Z0 Z0)). rewrite <- E. ring. }
    exists (q2_mul F (q2_mul F (q2_dbl F (q2_dbl F Y)) Z) (q2_mul F Z Z)). split.
    + push. intros E. apply (mul3 K _ _ _ (mul3 K _ _ _ io_two io_two YN) Z0 (kmul_neq0 K _ _ Z0 Z0)). rewrite <- E. ring.
    + rewrite m12_line. fold P in EL. transitivity ((1 + 1) * (1 + 1) * io Y * io Z * io Z * io Z * line_at K l (aff K w (io X) (io Y) (io Z)) P).
      * etransitivity; [|symmetry; exact EL]. push. ring.
      * push. ring.
Qed.
Lemma add_refine t x2 y2 l : fin t -> chord K (affj t) (affq x2 y2) = Some l ->
  let '(t', c) := add_eval F t x2 y2 in
  fin t' /\ third K l (affj t) (affq x2 y2) = affj t' /\
  line_at K l (affj t) P <> 0 /\ exists s, io s <> 0 /\ m12 (lineval F c (px, py)) = io s * line_at K l (affj t) P.
Proof.
  intros FT HL. destruct t as [X Y Z]. unfold affj, affq in *. cbn [jx jy jz] in *. pose proof (fin_io _ FT) as Z0. cbn [jz] in Z0.
  destruct (add_abs K w (ib px) (ib py) W0 _ _ _ _ _ _ Z0 HL _ _ eq_refl eq_refl) as (HN & EL & E3).
  specialize (E3 io_two).
  cbv beta iota zeta delta [add_eval]. cbn [jx jy jz].
  split; [|split].
  - unfold fin. cbn [jz]. apply io_neq. push. intros E. apply (mul3 K _ _ _ io_two Z0 HN). rewrite <- E. ring.
  - rewrite E3. f_equal; push; ring.
  - apply line_nz.
    { apply m12_nz, io_neq. push. intros E. apply (kmul_neq0 K _ _ io_two (mul3 K _ _ _ io_two Z0 HN)). rewrite <- E. ring. }
    exists (q2_mul F (q2_dbl F (q2_dbl F Z)) (q2_sub F (q2_mul F (q2_mul F x2 Z) Z) X)). split.
    + push. intros E. apply (kmul_neq0 K _ _ io_two (mul3 K _ _ _ io_two Z0 HN)). rewrite <- E. ring.
    + rewrite m12_line. transitivity ((1 + 1) * ((1 + 1) * io Z * (io x2 * io Z * io Z - io X) * line_at K l (aff K w (io X) (io Y) (io Z)) P)).
      * etransitivity; [|apply (f_equal (kmul (1 + 1))); symmetry; exact EL]. push. ring.
      * push. ring.
Qed.

(** Implementation state against specification state. *)
Definition refines (s : jac F * q12 F) (u : K * pt K) : Prop :=
  fin (fst s) /\ snd u = affj (fst s) /\ fst u <> 0 /\ exists k, io k <> 0 /\ m12 (snd s) = io k * fst u.
Lemma refine_dbl s u u' : refines s u -> dbl_step K P u = Some u' ->
  refines (fstep F (px, py) (double_eval F (fst s)) (q12_sq F (snd s))) u'.
Proof.
  destruct s as [t a], u as [f T]. intros (FT & ET & UN & k & K0 & EA). cbn [fst snd] in *. subst T. unfold dbl_step.
  destruct (tangent K (affj t)) as [l|] eqn:EL; [|discriminate]. intros E. injection E as <-.
  pose proof (dbl_refine t l FT EL) as D. destruct (double_eval F t) as [t' c]. destruct D as (FT' & E3 & LN & s & S0 & ES).
  unfold refines. cbn [fstep fst snd]. split; [exact FT'|]. split; [exact E3|]. split; [repeat apply kmul_neq0; assumption|].
  exists (q2_mul F (q2_mul F k k) s). rewrite q12_sq_mul, !m12_mul, EA, ES, !io_mul. split; [repeat apply kmul_neq0; assumption|ring].
Qed.
Lemma refine_add s u u' x2 y2 : refines s u -> add_step K P (affq x2 y2) u = Some u' ->
  refines (fstep F (px, py) (add_eval F (fst s) x2 y2) (snd s)) u'.
Proof.
  destruct s as [t a], u as [f T]. intros (FT & ET & UN & k & K0 & EA). cbn [fst snd] in *. subst T. unfold add_step.
  destruct (chord K (affj t) (affq x2 y2)) as [l|] eqn:EL; [|discriminate]. intros E. injection E as <-.
  pose proof (add_refine t x2 y2 l FT EL) as D. destruct (add_eval F t x2 y2) as [t' c]. destruct D as (FT' & E3 & LN & s & S0 & ES).
  unfold refines. cbn [fstep fst snd]. split; [exact FT'|]. split; [exact E3|]. split; [repeat apply kmul_neq0; assumption|].
  exists (q2_mul F k s). rewrite !m12_mul, EA, ES, !io_mul. split; [repeat apply kmul_neq0; assumption|ring].
Qed.
Lemma affq_neg x y : pneg K (affq x y) = affq x (q2_neg F y).
Proof. unfold pneg, affq, aff. cbn [fst snd]. f_equal. rewrite io_neg. field. apply k1_neq0. Qed.
Lemma fused_refine gx gy ds : forall first s u u', refines s u -> (first = true -> snd s = q12_1 F) ->
  miller K ds P (affq gx gy) u = Some u' -> refines (fused F first ds gx gy (px, py) s) u'.
Proof.
  induction ds as [|d ds IH]; intros first s u u' R HF H; [injection H as <-; exact R|].
  cbn [miller fused] in *. destruct (dbl_step K P u) as [u1|] eqn:E1; [|discriminate].
  replace (if first then snd s else q12_sq F (snd s)) with (q12_sq F (snd s)).
  2:{ destruct first; [|reflexivity]. rewrite HF by reflexivity. pose proof (q12_ring F) as RT. rewrite q12_sq_mul. apply (Rmul_1_l RT). }
  pose proof (refine_dbl _ _ _ R E1) as R1. set (s1 := fstep F _ _ _) in *. clearbody s1.
  destruct (d =? 1)%Z; [|destruct (d =? -1)%Z].
  - destruct (add_step K P (affq gx gy) u1) as [u2|] eqn:E2; [|discriminate]. eapply IH; [|discriminate|exact H]. eapply refine_add; eassumption.
  - destruct (add_step K P (pneg K (affq gx gy)) u1) as [u2|] eqn:E2; [|discriminate]. eapply IH; [|discriminate|exact H]. rewrite affq_neg in E2. eapply refine_add; eassumption.
  - eapply IH; [exact R1|discriminate|exact H].
Qed.
(** The two last lines, with the Frobenius map acting as given. *)
Variables (c61 c62 xh : q2 F) (frob : K -> K).
Hypothesis frob_x : forall x, frob (io x * w * w) = io (q2_mul F (q2_conj F x) c61) * w * w.
Hypothesis frob_y : forall y, frob (io y * w * w * w) = io (q2_mul F (q2_conj F y) xh) * w * w * w.
Hypothesis frob_x2 : forall x, frob (frob (io x * w * w)) = io (q2_mul F x c62) * w * w.
Hypothesis frob_y2 : forall y, frob (frob (io y * w * w * w)) = - (io y * w * w * w).
Lemma affq_eq x y : affq x y = (io x * w * w, io y * w * w * w).
Proof. unfold affq, aff. f_equal; field; apply k1_neq0. Qed.
Theorem miller_refine ds gx gy f : optimal_ate K frob ds P (io gx * w * w, io gy * w * w * w) = Some f ->
  f <> 0 /\ exists k, io k <> 0 /\ m12 (snd (fused_all F c61 c62 xh ds gx gy (px, py))) = io k * f.
Proof.
  unfold optimal_ate. cbn [fst snd]. rewrite <- (affq_eq gx gy).
  destruct (miller K ds P (affq gx gy) (1, affq gx gy)) as [u|] eqn:EM; [|discriminate].
  assert (R0 : refines (Jac F gx gy (q2_1 F), q12_1 F) (1, affq gx gy)).
  { split; [|split; [|split]]; cbn [fst snd].
    - unfold fin. cbn [jz]. apply io_neq. rewrite io_1. apply k1_neq0.
    - unfold affj, affq. cbn [jx jy jz]. rewrite io_1. reflexivity.
    - apply k1_neq0.
    - exists (q2_1 F). rewrite m12_1, io_1. split; [apply k1_neq0|ring]. }
  pose proof (fused_refine gx gy ds true _ _ _ R0 (fun _ => eq_refl) EM) as R1. unfold fused_all.
  set (s1 := fused F true ds gx gy (px, py) _) in *. clearbody s1.
  rewrite frob_x, frob_y, <- affq_eq. destruct (add_step K P _ u) as [u1|] eqn:E1; [|discriminate].
  pose proof (refine_add _ _ _ _ _ R1 E1) as R2. set (s2 := fstep F _ _ _) in *. clearbody s2.
  rewrite <- frob_x, <- frob_y, frob_x2, frob_y2. unfold pneg. cbn [fst snd].
  replace (- - (io gy * w * w * w)) with (io gy * w * w * w) by ring. rewrite <- affq_eq.
  destruct (add_step K P _ u1) as [u2|] eqn:E2; [|discriminate]. intros E. injection E as <-.
  pose proof (refine_add _ _ _ _ _ R2 E2) as (_ & _ & R3). exact R3.
Qed.
End Refine.

(** ** Where the twisted coordinates sit in the tower. *)
Section Slots.
Variable F : Fld.
Add Ring ring2s : (q2_ring F).
Add Field ff : (kth F).
Definition em2 (a : F) : q2 F := Q2 a k0.
Definition em12 (a : q2 F) : q12 F := Q12 (Q6 a (q2_0 F) (q2_0 F)) (q6_0 F).
Definition gw : q12 F := Q12 (q6_0 F) (q6_1 F).
Ltac slots := rewrite !q12_mul_coords; unfold em12, gw, q12_add, q12_1; cbn [e0 e1]; rewrite !q6_mul_coords;
  unfold q6_0, q6_1, vv, q6_v, q6_add; cbn [d0 d1 d2]; apply q12_eq; cbn [e0 e1]; apply q6_eq; cbn [d0 d1 d2]; ring.
Lemma gw2 : q12_mul F gw gw = Q12 (Q6 (q2_0 F) (q2_1 F) (q2_0 F)) (q6_0 F). Proof. slots. Qed.
Lemma gw3 : q12_mul F (q12_mul F gw gw) gw = Q12 (q6_0 F) (Q6 (q2_0 F) (q2_1 F) (q2_0 F)). Proof. rewrite gw2. slots. Qed.
Lemma em_mul a b : em12 (q2_mul F a b) = q12_mul F (em12 a) (em12 b). Proof. slots. Qed.
Lemma em_w a : q12_mul F (em12 a) gw = Q12 (q6_0 F) (Q6 a (q2_0 F) (q2_0 F)). Proof. slots. Qed.
Lemma em_w3 a : q12_mul F (em12 a) (q12_mul F (q12_mul F gw gw) gw) = Q12 (q6_0 F) (Q6 (q2_0 F) a (q2_0 F)). Proof. rewrite gw3. slots. Qed.
Lemma x_slot x : q12_mul F (q12_mul F (em12 x) gw) gw = Q12 (Q6 (q2_0 F) x (q2_0 F)) (q6_0 F). Proof. rewrite em_w. slots. Qed.
Lemma y_slot x : q12_mul F (q12_mul F (q12_mul F (em12 x) gw) gw) gw = Q12 (q6_0 F) (Q6 (q2_0 F) x (q2_0 F)). Proof. rewrite x_slot. slots. Qed.
Lemma scale_em a k : q2_scale F a k = q2_mul F a (em2 k).
Proof. apply q2_eq; unfold q2_scale, q2_mul, em2; cbn [c0 c1]; ring. Qed.
Lemma line_value a b c px py : lineval F (a, b, c) (px, py) = Q12 (Q6 (q2_scale F a py) (q2_0 F) (q2_0 F)) (Q6 (q2_scale F b px) c (q2_0 F)).
Proof. unfold lineval, untwist. rewrite q12_mul_by_034_spec. cbn [fst snd]. pose proof (q12_ring F) as RT. apply (Rmul_1_l RT). Qed.
Lemma line_slots a b c px py : lineval F (a, b, c) (px, py) =
  q12_add F (q12_add F (q12_mul F (em12 a) (em12 (em2 py))) (q12_mul F (q12_mul F (em12 b) (em12 (em2 px))) gw)) (q12_mul F (em12 c) (q12_mul F (q12_mul F gw gw) gw)).
Proof.
  rewrite line_value, em_w3, <- !em_mul, em_w, !scale_em. unfold em12, q12_add, q6_add, q6_0. cbn [e0 e1 d0 d1 d2].
  apply q12_eq; cbn [e0 e1]; apply q6_eq; cbn [d0 d1 d2]; ring.
Qed.
Lemma line_neq0 a b c px py : a <> q2_0 F -> py <> k0 -> lineval F (a, b, c) (px, py) <> q12_0 F.
Proof.
  intros A Y. rewrite line_value. intros E. apply (f_equal (fun z => d0 (e0 z))) in E. cbn [e0 e1 d0 q12_0 q6_0] in E.
  apply A. assert (E0 := f_equal c0 E). assert (E1 := f_equal c1 E). unfold q2_scale in *. cbn [c0 c1 q2_0] in *.
  apply q2_eq; cbn [c0 c1 q2_0].
  - apply kmul_eq0 in E0 as [H|H]; [exact H|contradiction].
  - apply kmul_eq0 in E1 as [H|H]; [exact H|contradiction].
Qed.
Lemma em_add a b : em12 (q2_add F a b) = q12_add F (em12 a) (em12 b).
Proof. unfold em12, q12_add, q6_add, q6_0. cbn [e0 e1 d0 d1 d2]. apply q12_eq; cbn [e0 e1]; apply q6_eq; cbn [d0 d1 d2]; ring. Qed.
Lemma em_inj a : em12 a = q12_0 F -> a = q2_0 F. Proof. intros H. apply (f_equal (fun z => d0 (e0 z))) in H. exact H. Qed.
Lemma gw_neq0 : gw <> q12_0 F. Proof. intros H. apply (f_equal (fun z => c0 (d0 (e1 z)))) in H. apply (k1_neq0 F). exact H. Qed.
Lemma two12 : (kadd k1 k1 : F) <> k0 -> q12_add F (q12_1 F) (q12_1 F) <> q12_0 F.
Proof. intros N H. apply (f_equal (fun z => c0 (d0 (e0 z)))) in H. apply N. exact H. Qed.
End Slots.
