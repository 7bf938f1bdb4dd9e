(** Line values up to a set of negligible factors: the cocycle law, the value at opposite points, and
    reciprocity. *)
From Coq Require Import ZArith List Bool Field Lia.
From Verif Require Import Algebra CurveSpec CurveGroup LineAlg.
Import ListNotations.
Local Open Scope fld_scope.

(** The value at P of the line through A and B (tangent if A = B); one if the line is vertical or a
    point is at infinity. *)
Definition lslope {K : Fld} (x1 y1 x2 y2 : K) : K :=
  if keqb x1 x2 then (x1 * x1 + x1 * x1 + x1 * x1) / (y1 + y1) else (y1 - y2) / (x1 - x2).
Definition lval {K : Fld} (A B P : point K) : K :=
  match A, B, P with
  | Pt x1 y1, Pt x2 y2, Pt x y => if keqb x1 x2 && keqb y1 (- y2) then 1 else (y - y1) - lslope x1 y1 x2 y2 * (x - x1)
  | _, _, _ => 1
  end.

Section Val.
Variable K : Fld.
Add Field vfield : (kth K).
Variable b : K.
Hypothesis two : (1 + 1 : K) <> 0.
Hypothesis three : (1 + 1 + 1 : K) <> 0.
Hypothesis bnz : b <> 0.
Notation on := (on_curve b).
Notation lin := (lin K).
Notation thx := (thx K).
Notation thy := (thy K).

Lemma lval_inf_l B (P : point K) : lval Inf B P = 1. Proof. reflexivity. Qed.
Lemma lval_inf_r A (P : point K) : lval A Inf P = 1. Proof. destruct A; reflexivity. Qed.
Lemma lval_inf (A B : point K) : lval A B Inf = 1. Proof. destruct A, B; reflexivity. Qed.
Lemma lval_opp (A P : point K) : lval A (pt_neg A) P = 1.
Proof.
  destruct A as [|x1 y1]; [reflexivity|]. destruct P as [|x y]; [reflexivity|]. cbn. replace (- - y1) with y1 by ring.
  rewrite !keqb_refl. reflexivity.
Qed.
Lemma lval_lin x1 y1 x2 y2 l x y : on (Pt x1 y1) -> lin x1 y1 x2 y2 l ->
  lval (Pt x1 y1) (Pt x2 y2) (Pt x y) = (y - y1) - l * (x - x1).
Proof.
  intros H1 L. pose proof (lin_not_opp K b two three bnz _ _ _ _ _ H1 L) as N. unfold lval.
  assert (EB : keqb x1 x2 && keqb y1 (- y2) = false).
  { destruct (keqb_spec K x1 x2), (keqb_spec K y1 (- y2)); try reflexivity. tauto. }
  rewrite EB. replace (lslope x1 y1 x2 y2) with l; [reflexivity|].
  apply (lin_unique K x1 y1 x2 y2); [exact N|exact L|]. destruct L as [L1 L2]. unfold lslope.
  destruct (keqb_spec K x1 x2) as [E|NE].
  - subst x2. assert (E : y1 = y2). { apply ksub_eq0. rewrite L1. ring. } subst y2.
    assert (Y : y1 + y1 <> 0). { intros E. apply (dbl0 K two) in E. apply N. split; [reflexivity|rewrite E; ring]. }
    split; field; assumption.
  - pose proof (subn _ _ _ NE) as D. split; [field; assumption|].
    apply (kmul_cancel_l K (x1 - x2)); [exact D|]. transitivity ((y1 - y2) * (y1 + y2)); [field; assumption|].
    rewrite L1. transitivity ((x1 - x2) * (l * (y1 + y2))); [ring|]. rewrite L2. reflexivity.
Qed.
Lemma lin_shift x1 y1 x2 y2 l x y : lin x1 y1 x2 y2 l -> (y - y1) - l * (x - x1) = (y - y2) - l * (x - x2).
Proof. intros [A _]. apply ksub_eq0. transitivity (l * (x1 - x2) - (y1 - y2)); [ring|]. rewrite A. ring. Qed.
(** The sum expressed from the second point. *)
Lemma add_lin2 x1 y1 x2 y2 l : on (Pt x1 y1) -> on (Pt x2 y2) -> lin x1 y1 x2 y2 l ->
  pt_add (Pt x1 y1) (Pt x2 y2) = Pt (l * l - x1 - x2) (l * (x2 - (l * l - x1 - x2)) - y2).
Proof.
  intros H1 H2 L. rewrite (add_lin K b two three bnz _ _ _ _ _ H1 H2 L). unfold CurveGroup.thx, CurveGroup.thy. f_equal.
  destruct L as [A _]. apply ksub_eq0. transitivity (l * (x1 - x2) - (y1 - y2)); [ring|]. rewrite A. ring.
Qed.
Lemma add_cases2 A B : on A -> on B ->
  A = Inf \/ B = Inf \/ B = pt_neg A \/
  (exists x1 y1 x2 y2 l, A = Pt x1 y1 /\ B = Pt x2 y2 /\ lin x1 y1 x2 y2 l /\
     pt_add A B = Pt (l * l - x1 - x2) (l * (x2 - (l * l - x1 - x2)) - y2)).
Proof.
  intros HA HB. destruct A as [|x1 y1]; [tauto|]. destruct B as [|x2 y2]; [tauto|]. right; right.
  destruct (add_cases K b two three bnz _ _ _ _ HA HB) as [(-> & -> & _)|(l & L & _)]; [left; reflexivity|right].
  exists x1, y1, x2, y2, l. split; [reflexivity|]. split; [reflexivity|]. split; [exact L|]. apply add_lin2; assumption.
Qed.
Lemma lval_comm A B P : on A -> on B -> lval A B P = lval B A P.
Proof.
  intros HA HB. destruct P as [|x y]; [rewrite !lval_inf; reflexivity|].
  destruct (add_cases2 A B HA HB) as [->|[->|[->|(x1 & y1 & x2 & y2 & l & -> & -> & L & _)]]].
  - rewrite lval_inf_r. reflexivity.
  - rewrite lval_inf_r. reflexivity.
  - rewrite lval_opp. rewrite <- (neg_neg K A) at 2. rewrite lval_opp. reflexivity.
  - rewrite (lval_lin _ _ _ _ _ _ _ HA L), (lval_lin _ _ _ _ _ _ _ HB (lin_sym _ _ _ _ _ _ L)). apply lin_shift, L.
Qed.

(** Negligible factors. *)
Variable U : K -> Prop.
Hypothesis U1 : U 1.
Hypothesis Umul : forall a c, U a -> U c -> U (a * c).
Hypothesis Uopp : forall a, U a -> U (- a).
Definition sim (a c : K) : Prop := exists u v, U u /\ U v /\ u * a = v * c.
Lemma sim_refl a : sim a a. Proof. exists 1, 1. auto. Qed.
Lemma sim_eq a c : a = c -> sim a c. Proof. intros ->. apply sim_refl. Qed.
Lemma sim_sym a c : sim a c -> sim c a. Proof. intros (u & v & A & B & E). exists v, u. auto. Qed.
Lemma sim_trans a c d : sim a c -> sim c d -> sim a d.
Proof.
  intros (u & v & A & B & E) (u' & v' & A' & B' & E'). exists (u' * u), (v * v'). split; [auto|]. split; [auto|].
  transitivity (u' * (u * a)); [ring|]. rewrite E. transitivity (v * (u' * c)); [ring|]. rewrite E'. ring.
Qed.
Lemma sim_mul a c a' c' : sim a c -> sim a' c' -> sim (a * a') (c * c').
Proof.
  intros (u & v & A & B & E) (u' & v' & A' & B' & E'). exists (u * u'), (v * v'). split; [auto|]. split; [auto|].
  transitivity ((u * a) * (u' * a')); [ring|]. rewrite E, E'. ring.
Qed.
Lemma sim_U a : U a -> sim a 1. Proof. intros H. exists 1, a. split; [auto|]. split; [auto|]. ring. Qed.
Lemma Uopp' a : U (- a) -> U a. Proof. intros H. replace a with (- - a) by ring. apply Uopp, H. Qed.

(** A group of points without two-torsion, and a point away from it. *)
Variable H : point K -> Prop.
Hypothesis H_on : forall A, H A -> on A.
Hypothesis H_add : forall A B, H A -> H B -> H (pt_add A B).
Hypothesis H_neg : forall A, H A -> H (pt_neg A).
Hypothesis H_two : forall x y, H (Pt x y) -> y <> 0.

Section OnePoint.
Variables x y : K.
Notation P := (Pt x y).
Hypothesis HP : on P.
Hypothesis away : forall x1 y1, H (Pt x1 y1) -> U (x - x1).

Lemma norm_sim x1 y1 x2 y2 l : H (Pt x1 y1) -> H (Pt x2 y2) -> lin x1 y1 x2 y2 l ->
  U (((y - y1) - l * (x - x1)) * ((- y - y1) - l * (x - x1))).
Proof.
  intros A B L. pose proof (H_add _ _ A B) as S. rewrite (add_lin2 _ _ _ _ l) in S by auto.
  rewrite (line_norm K b x1 y1 x2 y2 l x y (H_on _ A) L HP). apply Uopp, Umul; [apply Umul|]; eapply away; eassumption.
Qed.
(** The line through - A and A + C is the mirror image of the line through A and C. *)
Lemma cocycle_opp A C : H A -> H C -> sim 1 (lval A C P * lval (pt_neg A) (pt_add A C) P).
Proof.
  intros HA HC. destruct (add_cases2 A C (H_on _ HA) (H_on _ HC)) as [->|[->|[->|(x1 & y1 & x2 & y2 & l & -> & -> & L & E)]]].
  - cbn. apply sim_eq. ring.
  - rewrite lval_inf_r. rewrite add_inf_r. rewrite <- (neg_neg K A) at 2. rewrite lval_opp. apply sim_eq. ring.
  - rewrite add_neg, lval_opp, lval_inf_r. apply sim_eq. ring.
  - pose proof (H_on _ HA) as OA. pose proof (H_on _ HC) as OC.
    rewrite (lval_lin _ _ _ _ _ _ _ OA L). rewrite (add_lin K b two three bnz _ _ _ _ _ OA OC L). cbn [pt_neg].
    pose proof (lin_neg _ _ _ _ _ _ (lin_third _ _ _ _ _ _ L)) as L3. cbv zeta in L3.
    replace (- - CurveGroup.thy K l x1 y1 (CurveGroup.thx K l x1 x2)) with (CurveGroup.thy K l x1 y1 (CurveGroup.thx K l x1 x2)) in L3 by ring.
    rewrite (lval_lin _ _ _ _ _ _ _ (H_on _ (H_neg _ HA)) L3). apply sim_sym, sim_U, Uopp'.
    pose proof (norm_sim _ _ _ _ _ HA HC L) as N.
    replace (- ((y - y1 - l * (x - x1)) * (y - - y1 - - l * (x - x1)))) with ((y - y1 - l * (x - x1)) * (- y - y1 - l * (x - x1))) by ring.
    exact N.
Qed.
(** Values at negated arguments. *)
Lemma neg_sim A B : H A -> H B -> sim (lval A B P * lval (pt_neg A) (pt_neg B) P) 1.
Proof.
  intros HA HB. destruct (add_cases2 A B (H_on _ HA) (H_on _ HB)) as [->|[->|[->|(x1 & y1 & x2 & y2 & l & -> & -> & L & E)]]].
  - cbn. apply sim_eq. ring.
  - cbn [pt_neg]. rewrite !lval_inf_r. apply sim_eq. ring.
  - rewrite !lval_opp. apply sim_eq. ring.
  - cbn [pt_neg]. rewrite (lval_lin _ _ _ _ _ _ _ (H_on _ HA) L), (lval_lin _ _ _ _ _ _ _ (H_on _ (H_neg _ HA)) (lin_neg _ _ _ _ _ _ L)).
    apply sim_U, Uopp'. pose proof (norm_sim _ _ _ _ _ HA HB L) as N.
    replace (- ((y - y1 - l * (x - x1)) * (y - - y1 - - l * (x - x1)))) with ((y - y1 - l * (x - x1)) * (- y - y1 - l * (x - x1))) by ring.
    exact N.
Qed.
Lemma opp_value A B : H A -> H B -> sim (lval A B P * lval A B (Pt x (- y))) 1.
Proof.
  intros HA HB. destruct (add_cases2 A B (H_on _ HA) (H_on _ HB)) as [->|[->|[->|(x1 & y1 & x2 & y2 & l & -> & -> & L & E)]]].
  - cbn. apply sim_eq. ring.
  - rewrite !lval_inf_r. apply sim_eq. ring.
  - rewrite !lval_opp. apply sim_eq. ring.
  - rewrite !(lval_lin _ _ _ _ _ _ _ (H_on _ HA) L). apply sim_U, (norm_sim _ _ _ _ _ HA HB L).
Qed.
Lemma cocycle A B C : H A -> H B -> H C ->
  sim (lval A B P * lval (pt_add A B) C P) (lval B C P * lval A (pt_add B C) P).
Proof.
  intros HA HB HC. pose proof (H_on _ HA) as OA. pose proof (H_on _ HB) as OB. pose proof (H_on _ HC) as OC.
  destruct (add_cases2 A B OA OB) as [->|[->|[EB|(xA & yA & xB & yB & al & EA & EB & LA & ED)]]].
  - rewrite !lval_inf_l, add_inf_l. apply sim_eq. ring.
  - rewrite lval_inf_r, lval_inf_l, add_inf_r, add_inf_l. apply sim_eq. ring.
  - (* A = - B *)
    subst B. rewrite lval_opp, add_neg, lval_inf_l. apply sim_trans with 1; [apply sim_eq; ring|].
    pose proof (cocycle_opp (pt_neg A) C HB HC) as S. rewrite neg_neg in S. exact S.
  - destruct (add_cases2 B C OB OC) as [EB'|[->|[EC|(xB' & yB' & xC & yC & be & EB' & EC & LB & EE)]]].
    + exfalso. rewrite EB' in EB. discriminate EB.
    + rewrite !lval_inf_r, add_inf_r. apply sim_eq. ring.
    + (* C = - B *)
      subst C. rewrite lval_opp, add_neg, lval_inf_r. apply sim_sym. apply sim_trans with 1; [apply sim_eq; ring|].
      rewrite (lval_comm A B P OA OB). rewrite (add_comm K b two three bnz A B OA OB).
      rewrite (lval_comm _ (pt_neg B) P (H_on _ (H_add _ _ HB HA)) OC). apply cocycle_opp; assumption.
    + assert (EX : xB' = xB /\ yB' = yB) by (rewrite EB in EB'; injection EB'; auto). destruct EX as [-> ->]. clear EB'.
      subst A B C. set (xD := al * al - xA - xB) in *. set (yD := al * (xB - xD) - yB) in *.
      assert (EE' : pt_add (Pt xB yB) (Pt xC yC) = Pt (be * be - xB - xC) (be * (xB - (be * be - xB - xC)) - yB)).
      { rewrite (add_lin K b two three bnz _ _ _ _ _ OB OC LB). reflexivity. }
      clear EE. rename EE' into EE. set (xE := be * be - xB - xC) in *. set (yE := be * (xB - xE) - yB) in *.
      pose proof (H_add _ _ HA HB) as HD. pose proof (H_add _ _ HB HC) as HE. rewrite ED in HD. rewrite EE in HE.
      pose proof (H_on _ HD) as OD. pose proof (H_on _ HE) as OE.
      pose proof (add_assoc K b two three bnz _ _ _ OA OB OC) as AS. rewrite ED, EE in AS. rewrite ED, EE.
      destruct (add_cases2 _ _ OD OC) as [F|[F|[EC|(xD' & yD' & xC' & yC' & ga & ED' & EC' & LG & ES)]]]; [discriminate F|discriminate F| |].
      * (* C = - D *)
        rewrite EC, lval_opp. rewrite EC, add_neg in AS. symmetry in AS. apply (add_eq_inf K b two three bnz _ _ OA OE) in AS.
        rewrite AS, lval_opp. apply sim_eq. f_equal.
        rewrite (lval_comm _ _ P OA OB). rewrite (lval_lin _ _ _ _ _ _ _ OB (lin_sym _ _ _ _ _ _ LA)).
        cbn [pt_neg].
        assert (L3 : lin xB yB xD (- yD) al).
        { pose proof (lin_third _ _ _ _ _ _ (lin_sym _ _ _ _ _ _ LA)) as L3. cbv zeta in L3. unfold CurveGroup.thx, CurveGroup.thy in L3.
          replace (al * al - xB - xA) with xD in L3 by (unfold xD; ring). exact L3. }
        rewrite (lval_lin _ _ _ _ _ _ _ OB L3). reflexivity.
      * injection ED' as <- <-. injection EC' as <- <-.
        destruct (add_cases2 _ _ OA OE) as [F|[F|[EC|(xA' & yA' & xE' & yE' & de & EA' & EE' & LD & ES')]]]; [discriminate F|discriminate F| |].
        { exfalso. rewrite EC, add_neg in AS. rewrite AS in ES. discriminate ES. }
        injection EA' as <- <-. injection EE' as <- <-.
        assert (AX : ga * ga - xD - xC = de * de - xA - xE) by (rewrite ES, ES' in AS; injection AS; auto).
        pose proof (cocycle_lines K b two three bnz xA yA xB yB xC yC al be ga de x y OA OB OC (H_two _ _ HB) LA LB LG LD OD OE AX HP) as CL.
        cbv zeta in CL. fold xD xE in CL. fold yD yE in CL.
        rewrite (lval_lin _ _ _ _ _ _ _ OA LA), (lin_shift _ _ _ _ _ _ _ LA), (lval_lin _ _ _ _ _ _ _ OD LG),
          (lval_lin _ _ _ _ _ _ _ OB LB), (lval_lin _ _ _ _ _ _ _ OA LD), (lin_shift _ _ _ _ _ _ _ LD).
        exists (x - xE), (x - xD). split; [eapply away; exact HE|]. split; [eapply away; exact HD|].
        match type of CL with ?a * ?c = ?d * ?e => transitivity (a * c); [ring|transitivity (d * e); [exact CL|ring]] end.
Qed.
End OnePoint.
End Val.

(** Two groups of points that are away from each other. *)
Section Recip.
Variable K : Fld.
Add Field rvfield : (kth K).
Variable b : K.
Hypothesis two : (1 + 1 : K) <> 0.
Hypothesis three : (1 + 1 + 1 : K) <> 0.
Hypothesis bnz : b <> 0.
Notation on := (on_curve b).
Variable U : K -> Prop.
Hypothesis U1 : U 1.
Hypothesis Umul : forall a c, U a -> U c -> U (a * c).
Hypothesis Uopp : forall a, U a -> U (- a).
Notation sim := (sim K U).
Variable H : point K -> Prop.
Hypothesis H_on : forall A, H A -> on A.
Hypothesis H_add : forall A B, H A -> H B -> H (pt_add A B).
Hypothesis H_neg : forall A, H A -> H (pt_neg A).
Variable G : point K -> Prop.
Hypothesis G_on : forall A, G A -> on A.
Hypothesis G_add : forall A B, G A -> G B -> G (pt_add A B).
Hypothesis G_neg : forall A, G A -> G (pt_neg A).
Hypothesis away : forall x y x1 y1, G (Pt x y) -> H (Pt x1 y1) -> U (x - x1).
Lemma away' x y x1 y1 : H (Pt x y) -> G (Pt x1 y1) -> U (x - x1).
Proof. intros A B. replace (x - x1) with (- (x1 - x)) by ring. apply Uopp. eapply away; eassumption. Qed.

Lemma recip_opp_l A P Q : H A -> G P -> G Q -> sim 1 (lval P Q A * lval P Q (pt_neg A)).
Proof.
  intros HA GP GQ. apply sim_sym. destruct A as [|x y].
  - cbn [pt_neg]. rewrite !lval_inf. apply sim_eq; [exact U1|ring].
  - cbn [pt_neg]. apply (opp_value K b two three bnz U U1 Umul Uopp G G_on G_add x y (H_on _ HA)); try assumption.
    intros x1 y1 G1. apply (away' _ _ _ _ HA G1).
Qed.
Lemma recip_opp_r A B P : H A -> H B -> G P -> sim (lval A B P * lval A B (pt_neg P)) 1.
Proof.
  intros HA HB GP. destruct P as [|x y].
  - cbn [pt_neg]. rewrite !lval_inf. apply sim_eq; [exact U1|ring].
  - cbn [pt_neg]. apply (opp_value K b two three bnz U U1 Umul Uopp H H_on H_add x y (G_on _ GP)); try assumption.
    intros x1 y1 H1. apply (away _ _ _ _ GP H1).
Qed.
Lemma reciprocity A B P Q : H A -> H B -> G P -> G Q ->
  sim (lval A B P * lval A B Q * lval P Q (pt_add A B)) (lval A B (pt_add P Q) * lval P Q A * lval P Q B).
Proof.
  intros HA HB GP GQ. pose proof (H_on _ HA) as OA. pose proof (H_on _ HB) as OB. pose proof (G_on _ GP) as OP. pose proof (G_on _ GQ) as OQ.
  destruct (add_cases2 K b two three bnz A B OA OB) as [->|[->|[->|(xA & yA & xB & yB & al & -> & -> & LA & ED)]]].
  - rewrite !lval_inf_l, lval_inf, add_inf_l. apply sim_eq; [exact U1|ring].
  - rewrite !lval_inf_r, lval_inf, add_inf_r. apply sim_eq; [exact U1|ring].
  - rewrite !lval_opp, add_neg, lval_inf. pose proof (recip_opp_l A P Q HA GP GQ) as S.
    apply (sim_trans K U Umul) with 1; [apply sim_eq; [exact U1|ring]|].
    apply (sim_trans K U Umul) with (lval P Q A * lval P Q (pt_neg A)); [exact S|apply sim_eq; [exact U1|ring]].
  - destruct (add_cases2 K b two three bnz P Q OP OQ) as [->|[->|[->|(xP & yP & xQ & yQ & m & -> & -> & LP & ES)]]].
    + rewrite !lval_inf_l, add_inf_l, lval_inf. apply sim_eq; [exact U1|ring].
    + rewrite !lval_inf_r, add_inf_r, lval_inf. apply sim_eq; [exact U1|ring].
    + rewrite add_neg, lval_inf, !lval_opp. pose proof (recip_opp_r _ _ P HA HB GP) as S.
      apply (sim_trans K U Umul) with (lval (Pt xA yA) (Pt xB yB) P * lval (Pt xA yA) (Pt xB yB) (pt_neg P));
        [apply sim_eq; [exact U1|ring]|].
      apply (sim_trans K U Umul) with 1; [exact S|apply sim_eq; [exact U1|ring]].
    + pose proof (H_add _ _ HA HB) as HD. pose proof (G_add _ _ GP GQ) as GS. rewrite ED in HD. rewrite ES in GS. rewrite ED, ES.
      set (xD := al * al - xA - xB) in *. set (yD := al * (xB - xD) - yB) in *.
      set (xS := m * m - xP - xQ) in *. set (yS := m * (xQ - xS) - yQ) in *.
      pose proof (recip_opp_r _ _ _ HA HB GS) as NS. pose proof (recip_opp_l _ _ _ HD GP GQ) as ND. cbn [pt_neg] in NS, ND.
      pose proof (line_recip K b xA yA xB yB al xP yP xQ yQ m OA LA OP LP) as R. cbv beta zeta in R.
      fold xD xS in R. fold yD yS in R.
      assert (EL : forall x y, lval (Pt xA yA) (Pt xB yB) (Pt x y) = (y - yB) - al * (x - xB)).
      { intros x y. rewrite (lval_lin K b two three bnz _ _ _ _ _ _ _ OA LA). apply lin_shift, LA. }
      assert (EM : forall x y, lval (Pt xP yP) (Pt xQ yQ) (Pt x y) = (y - yQ) - m * (x - xQ)).
      { intros x y. rewrite (lval_lin K b two three bnz _ _ _ _ _ _ _ OP LP). apply lin_shift, LP. }
      rewrite <- !EL, <- !EM in R. destruct NS as (u & v & Uu & Uv & NS). destruct ND as (u' & v' & Uu' & Uv' & ND).
      exists (v * v'), (- (u * u')). split; [auto|]. split; [auto|].
      set (l := lval (Pt xA yA) (Pt xB yB)) in *. set (h := lval (Pt xP yP) (Pt xQ yQ)) in *.
      assert (Ev : v = u * (l (Pt xS yS) * l (Pt xS (- yS)))) by (rewrite NS; ring).
      assert (Eu : u' = v' * (h (Pt xD yD) * h (Pt xD (- yD)))) by (rewrite <- ND; ring).
      rewrite Ev, Eu. clear - R.
      transitivity (u * v' * h (Pt xD yD) * l (Pt xS yS) * (l (Pt xP yP) * l (Pt xQ yQ) * l (Pt xS (- yS)))); [ring|]. rewrite R. ring.
Qed.
End Recip.
