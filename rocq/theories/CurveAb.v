(** The curve points as a commutative group; scalar multiplication, sums and batch conversion. *)
From Coq Require Import ZArith List Bool Field Lia Eqdep_dec.
From Verif Require Import LimbModel FieldModel FieldSpec Algebra CurveSpec CurveGroup WeierModel WeierProofs GroupLib.
Import ListNotations.
Local Open Scope fld_scope.

Section Ab.
Variable K : Fld.
Add Field abfield : (kth K).
Variables b b3 : K.
Hypothesis Hb3 : b3 = b + b + b.
Hypothesis two : (1 + 1 : K) <> 0.
Hypothesis three : (1 + 1 + 1 : K) <> 0.
Hypothesis bnz : b <> 0.
Notation on := (on_curve b).

Definition onb (P : point K) : bool := match P with Inf => true | Pt x y => keqb (y * y) (x * x * x + b) end.
Lemma onb_on P : onb P = true <-> on P.
Proof. destruct P; cbn; [tauto|apply keqb_eq]. Qed.
Definition cpt : Type := { P : point K | onb P = true }.
Definition cval (P : cpt) : point K := proj1_sig P.
Lemma cval_on P : on (cval P). Proof. apply onb_on. exact (proj2_sig P). Qed.
Lemma cpt_eq (P Q : cpt) : cval P = cval Q -> P = Q.
Proof. destruct P as [P HP], Q as [Q HQ]; cbn. intros E. subst Q. f_equal. apply UIP_dec, Bool.bool_dec. Qed.
Definition cmk (P : point K) (H : on P) : cpt := exist _ P (proj2 (onb_on P) H).
Definition cgrp : AbGrp.
Proof.
  refine (mkAb cpt (cmk Inf I) (fun P Q => cmk (pt_add (cval P) (cval Q)) (add_on K b two three bnz _ _ (cval_on P) (cval_on Q)))
    (fun P => cmk (pt_neg (cval P)) (on_neg K b _ (cval_on P))) _ _ _ _).
  - intros P Q R. apply cpt_eq. cbn. symmetry. apply (add_assoc K b two three bnz); apply cval_on.
  - intros P Q. apply cpt_eq. cbn. apply (add_comm K b two three bnz); apply cval_on.
  - intros P. apply cpt_eq. reflexivity.
  - intros P. apply cpt_eq. cbn. apply add_neg.
Defined.

Lemma cval_add (P Q : cgrp) : cval (aadd P Q) = pt_add (cval P) (cval Q). Proof. reflexivity. Qed.
Lemma cval_neg (P : cgrp) : cval (aneg P) = pt_neg (cval P). Proof. reflexivity. Qed.
Lemma cval_nmul n (P : cgrp) : cval (nmul n P) = pt_mul n (cval P).
Proof. induction n as [|n IH]; [reflexivity|]. cbn [nmul pt_mul]. rewrite cval_add, IH. reflexivity. Qed.
Lemma cval_zmul k (P : cgrp) : cval (zmul k P) = pt_zmul k (cval P).
Proof. unfold zmul, pt_zmul. destruct (k <? 0)%Z; [rewrite cval_neg|]; rewrite cval_nmul; reflexivity. Qed.
Lemma cval_sum (l : list cgrp) : cval (asum l) = pt_sum (map cval l).
Proof. induction l as [|P l IH]; [reflexivity|]. cbn [asum fold_right map pt_sum]. rewrite cval_add. f_equal. exact IH. Qed.

(** A projective representation [p] of the group element [P]. *)
Definition reps (p : proj K) (P : cgrp) : Prop := proj_pt K p = cval P.
Definition areps (p : aff K) (P : cgrp) : Prop := aff_pt K p = cval P.
Lemma on_reps p : on (proj_pt K p) -> exists P, reps p P.
Proof. intros H. exists (cmk _ H). reflexivity. Qed.
Lemma on_areps p : on (aff_pt K p) -> exists P, areps p P.
Proof. intros H. exists (cmk _ H). reflexivity. Qed.
Lemma reps_on p P : reps p P -> on (proj_pt K p). Proof. intros ->. apply cval_on. Qed.
Lemma areps_on p P : areps p P -> on (aff_pt K p). Proof. intros ->. apply cval_on. Qed.
Lemma reps_identity : reps (proj_identity K) a0. Proof. apply identity_pt. Qed.
Lemma reps_add p q P Q : reps p P -> reps q Q -> reps (proj_add K b3 p q) (aadd P Q).
Proof.
  intros HP HQ. unfold reps, proj_add. rewrite (add_proj_ok K b b3 Hb3 two p q (reps_on _ _ HP) (reps_on _ _ HQ)), HP, HQ. reflexivity.
Qed.
Lemma reps_neg p P : reps p P -> reps (proj_neg K p) (aneg P).
Proof. intros HP. unfold reps. rewrite neg_proj_ok, HP. reflexivity. Qed.
Lemma areps_neg p P : areps p P -> areps (aff_neg K p) (aneg P).
Proof. intros HP. unfold areps. rewrite neg_aff_ok, HP. reflexivity. Qed.
Lemma reps_sub p q P Q : reps p P -> reps q Q -> reps (proj_sub K b3 p q) (aadd P (aneg Q)).
Proof. intros HP HQ. apply (reps_add p (proj_neg K q)); [exact HP|apply reps_neg, HQ]. Qed.
Lemma reps_double p P : reps p P -> reps (double_projective_point K b3 p) (aadd P P).
Proof. intros HP. unfold reps. rewrite (double_proj_ok K b b3 Hb3 two p (reps_on _ _ HP)), HP. reflexivity. Qed.
Lemma reps_mixed p q P Q : areps p P -> reps q Q -> reps (add_mixed_point K b3 p q) (aadd P Q).
Proof.
  intros HP HQ. unfold reps. rewrite (add_mixed_ok K b b3 Hb3 two p q (areps_on _ _ HP) (reps_on _ _ HQ)), HP, HQ. reflexivity.
Qed.
Lemma reps_aff_add p q P Q : areps p P -> areps q Q -> reps (add_affine_point K b3 p q) (aadd P Q).
Proof.
  intros HP HQ. unfold reps. rewrite (add_aff_ok K b b3 Hb3 two p q (areps_on _ _ HP) (areps_on _ _ HQ)), HP, HQ. reflexivity.
Qed.
Lemma reps_extended p P : areps p P -> reps (to_extended K p) P.
Proof. intros HP. unfold reps. rewrite to_extended_ok, HP. reflexivity. Qed.
Lemma reps_affine p P : reps p P -> areps (to_affine K p) P.
Proof. intros HP. unfold areps. rewrite to_affine_ok, HP. reflexivity. Qed.
Lemma reps_eqb p q P Q : reps p P -> reps q Q -> (proj_eqb K p q = true <-> P = Q).
Proof. intros HP HQ. rewrite proj_eqb_ok, HP, HQ. split; [apply cpt_eq|intros ->; reflexivity]. Qed.
Lemma reps_fun p P Q : reps p P -> reps p Q -> P = Q.
Proof. intros HP HQ. apply cpt_eq. rewrite <- HP, <- HQ. reflexivity. Qed.

Lemma reps_digits p P ds : forall res k, reps p P -> reps res (zmul k P) ->
  reps (fold_left (scalar_step K b3 p) ds res) (zmul (fold_left (fun acc d => 2 * acc + d) (map naf_val ds) k)%Z P).
Proof.
  induction ds as [|d ds IH]; intros res k HP HR; [exact HR|]. cbn [fold_left map].
  apply IH; [exact HP|]. unfold scalar_step. pose proof (reps_double _ _ HR) as D. rewrite <- zmul_double in D.
  destruct d; cbn [naf_val].
  - rewrite Z.add_0_r. exact D.
  - rewrite zmul_add, zmul_1. apply reps_add; assumption.
  - rewrite zmul_add. change (-1)%Z with (- (1))%Z. rewrite zmul_opp, zmul_1. apply reps_sub; assumption.
Qed.
Lemma reps_scalar p P ds : reps p P -> reps (scalar_digits K b3 p ds) (zmul (be_value 2 (map naf_val ds)) P).
Proof. intros HP. apply (reps_digits p P ds (proj_identity K) 0%Z HP). rewrite zmul_0. apply reps_identity. Qed.
Lemma reps_sum l L : Forall2 reps l L -> reps (proj_sum K b3 l) (asum L).
Proof.
  intros H. unfold proj_sum. rewrite <- (aid cgrp (asum L)), <- asum_fold_left.
  assert (H0 : reps (proj_identity K) a0) by apply reps_identity. revert H0.
  generalize (proj_identity K) (a0 : cgrp). induction H as [|p P l L HP HL IH]; intros r R HR; [exact HR|].
  cbn [fold_left]. apply IH, reps_add; assumption.
Qed.
Lemma reps_bits p P : forall fuel x k acc A, (0 <= x < 2 ^ Z.of_nat fuel)%Z -> reps p (zmul k P) -> reps acc A ->
  reps (mul_by_bits K b3 fuel x p acc) (aadd A (zmul (2 * k * x) P)).
Proof.
  intros fuel. revert p. induction fuel as [|f IH]; intros p x k acc A R HP HA.
  - assert (x = 0%Z) as -> by (change (2 ^ Z.of_nat 0)%Z with 1%Z in R; lia). rewrite Z.mul_0_r, zmul_0, aid_r. exact HA.
  - cbn [mul_by_bits]. destruct (Z.eqb_spec x 0) as [->|N]; [rewrite Z.mul_0_r, zmul_0, aid_r; exact HA|].
    pose proof (reps_double _ _ HP) as D. rewrite <- zmul_double in D.
    assert (R' : (0 <= x / 2 < 2 ^ Z.of_nat f)%Z).
    { rewrite Nat2Z.inj_succ, Z.pow_succ_r in R by lia. split; [apply Z.div_pos; lia|apply Z.div_lt_upper_bound; lia]. }
    pose proof (Z.div_mod x 2 ltac:(lia)) as E.
    destruct (Z.eqb_spec (x mod 2) 1) as [O|O].
    + pose proof (IH _ (x / 2)%Z (2 * k)%Z (proj_add K b3 acc (double_projective_point K b3 p)) (aadd A (zmul (2 * k) P)) R' D (reps_add _ _ _ _ HA D)) as H.
      rewrite <- aassoc, <- zmul_add in H. replace (2 * k * x)%Z with (2 * k + 2 * (2 * k) * (x / 2))%Z; [exact H|]. rewrite E at 2. rewrite O. ring.
    + assert (O' : (x mod 2 = 0)%Z) by (pose proof (Z.mod_pos_bound x 2 ltac:(lia)); lia).
      pose proof (IH _ (x / 2)%Z (2 * k)%Z acc A R' D HA) as H. replace (2 * k * x)%Z with (2 * (2 * k) * (x / 2))%Z; [exact H|]. rewrite E at 2. rewrite O'. ring.
Qed.
Lemma reps_mul_by_x p P x neg : reps p P -> (0 <= x < 2 ^ 65)%Z ->
  reps (mul_by_x K b3 x neg p) (zmul ((if neg then -1 else 1) * (x - x mod 2)) P).
Proof.
  intros HP R. unfold mul_by_x.
  assert (R' : (0 <= x / 2 < 2 ^ Z.of_nat 64)%Z). { split; [apply Z.div_pos; lia|apply Z.div_lt_upper_bound; [lia|]]. change (2 ^ 65)%Z with (2 * 2 ^ Z.of_nat 64)%Z in R. lia. }
  assert (HP1 : reps p (zmul 1 P)) by (rewrite zmul_1; exact HP).
  pose proof (reps_bits p P 64 (x / 2) 1 _ _ R' HP1 reps_identity) as H. rewrite aid in H.
  pose proof (Z.div_mod x 2 ltac:(lia)) as E. replace (2 * 1 * (x / 2))%Z with (x - x mod 2)%Z in H by lia.
  destruct neg; [|rewrite Z.mul_1_l; exact H].
  replace (-1 * (x - x mod 2))%Z with (- (x - x mod 2))%Z by lia. rewrite zmul_opp. apply reps_neg, H.
Qed.
End Ab.
