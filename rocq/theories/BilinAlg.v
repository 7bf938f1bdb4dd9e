(** Bilinearity of an optimal Ate sum from three facts about its line values: they are a cocycle, two
    lines satisfy reciprocity, and Frobenius acts on them as multiplication by q. *)
From Coq Require Import ZArith List Bool Lia.
From Verif Require Import GroupLib AbTac.
Local Open Scope Z_scope.
Local Infix "+!" := aadd (at level 50, left associativity).

(** The extension of [A] by [T] with a normalised symmetric cocycle. *)
Section Ext.
Variables A T : AbGrp.
Record cocycle_on (c : A -> A -> T) : Prop := {
  co_id : forall a, c a0 a = a0;
  co_opp : forall a, c a (aneg a) = a0;
  co_sym : forall a b, c a b = c b a;
  co_assoc : forall a b d, c a b +! c (a +! b) d = c b d +! c a (b +! d) }.
Variable c : A -> A -> T.
Hypothesis C : cocycle_on c.
Definition ext : AbGrp.
Proof.
  refine (mkAb (A * T) (a0, a0) (fun x y => (fst x +! fst y, snd x +! snd y +! c (fst x) (fst y))) (fun x => (aneg (fst x), aneg (snd x))) _ _ _ _).
  - intros [x u] [y v] [z w]. cbn [fst snd]. f_equal; [apply aassoc|].
    transitivity (u +! v +! w +! (c y z +! c x (y +! z))); [ab|]. rewrite <- (co_assoc c C). ab.
  - intros [x u] [y v]. cbn [fst snd]. f_equal; [apply acomm|]. rewrite (co_sym c C). f_equal. apply acomm.
  - intros [x u]. cbn [fst snd]. rewrite (co_id c C), aid_r, !aid. reflexivity.
  - intros [x u]. cbn [fst snd]. rewrite (co_opp c C), aid_r, !ainv. reflexivity.
Defined.
Definition inj (a : A) : ext := (a, a0).
Definition cen (t : T) : ext := (a0, t).
Lemma ext_split (x : ext) : x = inj (fst x) +! cen (snd x).
Proof. destruct x as [a t]. cbn. rewrite (co_sym c C), (co_id c C), aid, !aid_r. reflexivity. Qed.
Lemma inj_add a b : inj a +! inj b = inj (a +! b) +! cen (c a b).
Proof. cbn. rewrite (co_sym c C (a +! b)), (co_id c C), !aid, !aid_r. reflexivity. Qed.
Lemma cen_add t u : cen t +! cen u = cen (t +! u).
Proof. cbn. rewrite (co_id c C), aid, aid_r. reflexivity. Qed.
Lemma cen_nmul n t : nmul n (cen t) = cen (nmul n t).
Proof. induction n as [|n IH]; [reflexivity|]. cbn [nmul]. rewrite IH. apply cen_add. Qed.
Lemma cen_zmul k t : zmul k (cen t) = cen (zmul k t).
Proof. unfold zmul. destruct (k <? 0); rewrite cen_nmul; [|reflexivity]. cbn. rewrite aneg_0. reflexivity. Qed.
Lemma cen_inj t u : cen t = cen u -> t = u. Proof. intros E. exact (f_equal snd E). Qed.
Lemma fst_nmul n x : fst (nmul n x : ext) = nmul n (fst x).
Proof. induction n as [|n IH]; [reflexivity|]. cbn [nmul]. rewrite <- IH. reflexivity. Qed.
Lemma fst_zmul k x : fst (zmul k x : ext) = zmul k (fst x).
Proof. unfold zmul. destruct (k <? 0); [cbn [aneg ext fst]|]; rewrite fst_nmul; reflexivity. Qed.
(** The exponent collected by a Miller loop for [k a]. *)
Definition mil (k : Z) (a : A) : T := snd (zmul k (inj a) : ext).
Lemma mil_eq k a : zmul k (inj a) = inj (zmul k a) +! cen (mil k a).
Proof. rewrite (ext_split (zmul k (inj a))). rewrite fst_zmul. reflexivity. Qed.
Lemma mil_add j k a : mil (j + k) a = mil j a +! mil k a +! c (zmul j a) (zmul k a).
Proof. unfold mil. rewrite zmul_add. cbn [aadd ext snd]. rewrite !fst_zmul. reflexivity. Qed.
Lemma mil_1 a : mil 1 a = a0. Proof. unfold mil. rewrite zmul_1. reflexivity. Qed.
Lemma mil_m1 a : mil (-1) a = a0.
Proof. unfold mil. change (-1) with (- (1)). rewrite zmul_opp, zmul_1. cbn. apply aneg_0. Qed.
Lemma mil_0 a : mil 0 a = a0. Proof. reflexivity. Qed.
Lemma mil_double k a : mil (2 * k) a = mil k a +! mil k a +! c (zmul k a) (zmul k a).
Proof. replace (2 * k) with (k + k) by lia. apply mil_add. Qed.
Lemma mil_succ k a : mil (k + 1) a = mil k a +! c (zmul k a) a.
Proof. rewrite mil_add, mil_1, zmul_1, aid_r. reflexivity. Qed.
Lemma mil_pred k a : mil (k - 1) a = mil k a +! c (zmul k a) (aneg a).
Proof.
  replace (k - 1) with (k + -1) by lia. rewrite mil_add, mil_m1, aid_r. change (-1) with (- (1)). rewrite zmul_opp, zmul_1. reflexivity.
Qed.
Variables (pi : A -> A) (s : Z).
(** The whole loop: s a, then + pi a, then - pi^2 a. *)
Definition ate (a : A) : T :=
  mil s a +! c (zmul s a) (pi a) +! c (zmul s a +! pi a) (aneg (pi (pi a))).
Lemma ate_eq a : zmul s (inj a) +! inj (pi a) +! inj (aneg (pi (pi a))) =
  inj (zmul s a +! pi a +! aneg (pi (pi a))) +! cen (ate a).
Proof.
  rewrite (ext_split (zmul s (inj a) +! inj (pi a) +! inj (aneg (pi (pi a))))). f_equal.
  - f_equal. cbn [aadd ext fst inj]. rewrite fst_zmul. reflexivity.
  - f_equal. cbn [aadd ext fst snd inj]. rewrite fst_zmul. cbn [inj fst]. rewrite !aid_r. reflexivity.
Qed.
End Ext.
Arguments mil {A T c}. Arguments inj {A T c C}. Arguments cen {A T c C}. Arguments ate {A T c}.

(** Sums of cocycles. *)
Section Sum.
Variables A T : AbGrp.
Variables c d : A -> A -> T.
Hypothesis C : cocycle_on A T c.
Hypothesis D : cocycle_on A T d.
Definition csum (a b : A) : T := c a b +! d a b.
Lemma csum_ok : cocycle_on A T csum.
Proof.
  constructor; unfold csum; intros.
  - rewrite (co_id _ _ _ C), (co_id _ _ _ D). apply aid.
  - rewrite (co_opp _ _ _ C), (co_opp _ _ _ D). apply aid.
  - rewrite (co_sym _ _ _ C), (co_sym _ _ _ D). reflexivity.
  - rewrite aswap, (co_assoc _ _ _ C), (co_assoc _ _ _ D). apply aswap.
Qed.
Lemma nmul_csum n a : snd (nmul n (inj a) : ext A T csum csum_ok) = snd (nmul n (inj a) : ext A T c C) +! snd (nmul n (inj a) : ext A T d D).
Proof.
  induction n as [|n IH]; [cbn; rewrite aid; reflexivity|]. cbn [nmul]. cbn [aadd ext snd fst inj]. rewrite IH, !aid.
  rewrite !fst_nmul. unfold csum. cbn [inj fst]. apply aswap.
Qed.
Lemma mil_csum k a : mil csum_ok k a = mil C k a +! mil D k a.
Proof.
  unfold mil, zmul. destruct (k <? 0); [|apply nmul_csum]. cbn [aneg ext snd]. rewrite nmul_csum. apply aneg_add.
Qed.
Lemma ate_csum pi s a : ate csum_ok pi s a = ate C pi s a +! ate D pi s a.
Proof.
  unfold ate. rewrite mil_csum. unfold csum. ab.
Qed.
End Sum.

Section Bilin.
Variables A P T : AbGrp.
Variable c : P -> A -> A -> T.
Hypothesis C : forall p, cocycle_on A T (c p).
Variable h : P -> P -> A -> T.
Hypothesis recip : forall p p' a b, c p a b +! c p' a b +! h p p' (a +! b) = c (p +! p') a b +! (h p p' a +! h p p' b).
Hypothesis h_0 : forall p p', h p p' a0 = a0.
Variable pi : A -> A.
Hypothesis pi_add : forall a b, pi (a +! b) = pi a +! pi b.
Variables q s : Z.
Hypothesis c_pi : forall p a b, c p (pi a) (pi b) = zmul q (c p a b).
Hypothesis c_neg : forall p a b, c p (aneg a) (aneg b) = aneg (c p a b).
Hypothesis h_pi : forall p p' a, h p p' (pi a) = zmul q (h p p' a).
Definition loop_rel (a : A) : Prop := zmul s a +! pi a +! aneg (pi (pi a)) = aneg (pi (pi (pi a))).
Hypothesis lam : forall t : T, zmul (s + q - q * q + q * q * q) t = a0.
Lemma pi_0 : pi a0 = a0.
Proof. apply (acancel A (pi a0)). rewrite <- pi_add, aid, aid_r. reflexivity. Qed.
Lemma pi_neg a : pi (aneg a) = aneg (pi a).
Proof. apply aneg_unique. rewrite <- pi_add, ainv. apply pi_0. Qed.

Local Notation EX p := (ext A T (c p) (C p)).
Theorem ate_add_r p a b : loop_rel a -> loop_rel b -> loop_rel (a +! b) -> ate (C p) pi s (a +! b) = ate (C p) pi s a +! ate (C p) pi s b.
Proof.
  unfold loop_rel. intros Ra Rb Rab. set (t := c p a b).
  pose proof (ate_eq A T (c p) (C p) pi s a) as Ea. pose proof (ate_eq A T (c p) (C p) pi s b) as Eb.
  pose proof (ate_eq A T (c p) (C p) pi s (a +! b)) as Eab. rewrite Ra in Ea. rewrite Rb in Eb. rewrite Rab in Eab.
  assert (IA : forall u v : A, (inj (u +! v) : EX p) = inj u +! inj v +! cen (aneg (c p u v))).
  { intros u v. rewrite inj_add. rewrite <- aassoc, cen_add, ainv. symmetry. apply (aid_r (EX p)). }
  rewrite !pi_add, !aneg_add, !IA in Eab. rewrite !c_neg, !c_pi in Eab. fold t in Eab.
  rewrite !zmul_dist in Eab.
  assert (X : zmul s (cen (aneg t)) = (cen (aneg (zmul s t)) : EX p)).
  { rewrite cen_zmul, zmul_aneg. reflexivity. }
  rewrite X in Eab. clear X.
  set (tq := zmul q t) in *. set (tq2 := zmul q tq) in *. set (tq3 := zmul q tq2) in *. rewrite !aneg_neg in Eab.
  apply (cen_inj A T (c p) (C p)). rewrite <- cen_add.
  assert (V : (cen (aneg (zmul s t)) +! cen (aneg tq) +! cen tq2 : EX p) = cen tq3).
  { rewrite !cen_add. f_equal. apply (acancel T (zmul s t +! tq +! aneg tq2)).
    transitivity (a0 : T); [ab|]. rewrite <- (lam t). unfold tq3, tq2, tq.
    rewrite <- !zmul_mul, zmul_add, zmul_sub, zmul_add, !Z.mul_assoc. reflexivity. }
  apply (acancel (EX p) (inj (aneg (pi (pi (pi a)))) +! inj (aneg (pi (pi (pi b)))) +! cen tq3)).
  rewrite <- Eab. rewrite <- V.
  match type of Ea with ?x = ?y => match type of Eb with ?z = ?w => transitivity (x +! z +! (cen (aneg (zmul s t)) +! cen (aneg tq) +! cen tq2)) end end; [ab|].
  rewrite Ea, Eb. ab.
Qed.

(** The map (a, u) -> (a, u + h a) between extensions. *)
Theorem ate_add_l p p' a : loop_rel a -> ate (C (p +! p')) pi s a = ate (C p) pi s a +! ate (C p') pi s a.
Proof.
  unfold loop_rel. intros rel. rewrite <- (ate_csum A T (c p) (c p') (C p) (C p')). set (CS := csum_ok A T (c p) (c p') (C p) (C p')).
  set (phi := fun x : ext A T _ CS => (fst x, snd x +! h p p' (fst x)) : (EX (p +! p'))).
  assert (PH : forall x y : ext A T _ CS, phi (x +! y) = phi x +! phi y).
  { intros [x u] [y v]. unfold phi. cbn [aadd ext fst snd]. f_equal. unfold csum.
    transitivity (u +! v +! (c p x y +! c p' x y +! h p p' (x +! y))); [ab|]. rewrite recip. ab. }
  assert (PI : forall x, phi (inj x) = inj x +! cen (h p p' x)).
  { intros x. unfold phi. rewrite (ext_split A T _ (C (p +! p')) _). cbn [inj fst snd]. rewrite aid. reflexivity. }
  assert (PC : forall t, phi (cen t) = cen t).
  { intros t. unfold phi, cen. cbn [fst snd]. rewrite h_0, aid_r. reflexivity. }
  pose proof (ate_eq A T _ CS pi s a) as E1. pose proof (ate_eq A T _ (C (p +! p')) pi s a) as E2. rewrite rel in E1, E2.
  apply (f_equal phi) in E1. rewrite !PH, (hom_zmul (ext A T _ CS) (EX (p +! p')) phi PH), !PI, PC in E1.
  assert (HN : forall x, h p p' (aneg x) = aneg (h p p' x)).
  { intros x. apply aneg_unique. pose proof (recip p p' x (aneg x)) as R. rewrite ainv, h_0, !(co_opp _ _ _ (C _)), !aid in R.
    symmetry. exact R. }
  rewrite !HN, !h_pi in E1. set (t := h p p' a) in *. set (tq := zmul q t) in *. set (tq2 := zmul q tq) in *. set (tq3 := zmul q tq2) in *.
  rewrite zmul_dist in E1. assert (X : zmul s (cen t) = (cen (zmul s t) : (EX (p +! p')))) by apply cen_zmul. rewrite X in E1. clear X.
  apply (cen_inj A T _ (C (p +! p'))).
  assert (V : (cen (zmul s t) +! cen tq +! cen (aneg tq2) : (EX (p +! p'))) = cen (aneg tq3)).
  { rewrite !cen_add. f_equal. apply (acancel T tq3).
    transitivity (a0 : T); [|ab]. rewrite <- (lam t). unfold tq3, tq2, tq.
    rewrite <- !zmul_mul, zmul_add, zmul_sub, zmul_add, ?Z.mul_assoc. ab. }
  apply (acancel (EX (p +! p')) (inj (aneg (pi (pi (pi a)))) +! cen (aneg tq3))).
  match type of E1 with ?x = ?y => transitivity y; [|ab]; transitivity x; [|exact E1] end.
  rewrite <- V. match type of E2 with ?x = ?y => transitivity (y +! (cen (zmul s t) +! cen tq +! cen (aneg tq2))); [ab|] end.
  rewrite <- E2. ab.
Qed.
End Bilin.
