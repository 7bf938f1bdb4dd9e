(** Square roots in Fq2 and the target group. *)
From Coq Require Import ZArith List Bool Lia Field Ring.
From Verif Require Import LimbModel LimbProofs FieldModel FieldSpec FieldProofs DigitProofs PowProofs FieldMore Primes
  Algebra ExtModel ExtSpec ExtProofs ExtParams RingPow ExtFrob FinalExp PairingModel PairingFinal.
Import ListNotations.
Local Open Scope Z_scope.

Lemma be2_fold l : fold_left (fun acc d => 2 * acc + d) l 0 = be_value 2 l. Proof. reflexivity. Qed.
Section PowVartime.
Variable F : Fld.
Add Ring ring2v : (q2_ring F).
Notation pw := (rpow (q2_mul F) (q2_1 F)).
Lemma ladder2 a l : (forall d, In d l -> d = 0 \/ d = 1) -> forall k,
  0 <= k -> fold_left (fun res bit => if bit =? 1 then q2_mul F (q2_sq F res) a else q2_sq F res) l (pw a (Z.to_nat k))
  = pw a (Z.to_nat (fold_left (fun acc d => 2 * acc + d) l k)).
Proof.
  induction l as [|d l IH]; intros B k Hk; [reflexivity|]. cbn [fold_left].
  assert (S : q2_sq F (pw a (Z.to_nat k)) = pw a (Z.to_nat (2 * k))).
  { rewrite q2_sq_mul, <- (rpow_add _ _ _ _ _ _ (q2_ring F)). rewrite <- Z2Nat.inj_add by lia. f_equal. f_equal. lia. }
  rewrite S. destruct (B d (or_introl eq_refl)) as [-> | ->]; cbn [Z.eqb Pos.eqb].
  - rewrite IH; [rewrite Z.add_0_r; reflexivity|intros d Hd; apply B; right; exact Hd|lia].
  - assert (S1 : q2_mul F (pw a (Z.to_nat (2 * k))) a = pw a (Z.to_nat (2 * k + 1))).
    { rewrite Z2Nat.inj_add by lia. rewrite (rpow_add _ _ _ _ _ _ (q2_ring F)). change (Z.to_nat 1) with 1%nat. rewrite (rpow_1_r _ _ _ _ _ _ (q2_ring F)). reflexivity. }
    rewrite S1. apply IH; [intros d Hd; apply B; right; exact Hd|lia].
Qed.
Lemma q2_pow_vartime_spec a e : wf e -> q2_pow_vartime F a e = pw a (Z.to_nat (val e)).
Proof.
  intros W. unfold q2_pow_vartime. cbv zeta. change (q2_1 F) with (pw a (Z.to_nat 0)) at 1.
  rewrite ladder2; [|apply vartime_bits_bit|lia]. rewrite be2_fold, vartime_bits_value by exact W. reflexivity.
Qed.
End PowVartime.
Local Notation F := FqFld.
Definition sq_e1 : l4 := L4 0x4f082305b61f3f51 0x65e05aa45a1c72a3 0x6e14116da0605617 0x0c19139cb84c680a.
Definition sq_e2 : l4 := L4 0x9e10460b6c3e7ea3 0xcbc0b548b438e546 0xdc2822db40c0ac2e 0x183227397098d014.
Lemma e1_wf : wf sq_e1. Proof. unfold wf, word, sq_e1; rewrite Bval; vm_compute; intuition congruence. Qed.
Lemma e2_wf : wf sq_e2. Proof. unfold wf, word, sq_e2; rewrite Bval; vm_compute; intuition congruence. Qed.
Lemma e1_val : 4 * val sq_e1 + 3 = Q_MOD. Proof. rewrite Q_MOD_val. unfold val, sq_e1. cbn [w0 w1 w2 w3]. rewrite Bval. reflexivity. Qed.
Lemma e2_val : 2 * val sq_e2 + 1 = Q_MOD. Proof. rewrite Q_MOD_val. unfold val, sq_e2. cbn [w0 w1 w2 w3]. rewrite Bval. reflexivity. Qed.

(** Powers with integer exponents in Fq2. *)
Definition p2 (a : F2) (e : Z) : F2 := pw2 a (Z.to_nat e).
Lemma p2_add f a b : 0 <= a -> 0 <= b -> p2 f (a + b) = q2_mul F (p2 f a) (p2 f b).
Proof. intros. unfold p2. rewrite Z2Nat.inj_add by lia. apply (rpow_add _ _ _ _ _ _ r2). Qed.
Lemma p2_mul f a b : 0 <= a -> 0 <= b -> p2 f (a * b) = p2 (p2 f a) b.
Proof. intros. unfold p2. rewrite Z2Nat.inj_mul by lia. apply (rpow_mul _ _ _ _ _ _ r2). Qed.
Lemma p2_1 f : p2 f 1 = f. Proof. unfold p2. change (Z.to_nat 1) with 1%nat. apply (rpow_1_r _ _ _ _ _ _ r2). Qed.
Lemma p2_cancel a b c : a <> q2_0 F -> q2_mul F a b = q2_mul F a c -> b = c.
Proof. intros A H. exact (kmul_cancel_l Fq2Fld a b c A H). Qed.
Lemma p2_neq0 a e : a <> q2_0 F -> p2 a e <> q2_0 F.
Proof.
  intros A. unfold p2. induction (Z.to_nat e) as [|n IH]; [exact (k1_neq0 Fq2Fld)|]. rewrite rpow_S. exact (kmul_neq0 Fq2Fld _ _ A IH).
Qed.
Notation m2 := (q2_mul F).
Lemma sq_unit (q : Z) a b alpha x0 a1 : 3 <= q -> (forall z, p2 z (q * q) = z) -> (forall x y, p2 (q2_add F x y) q = q2_add F (p2 x q) (p2 y q)) ->
  (exists e, q = 4 * e + 3 /\ a1 = p2 a e) -> b <> q2_0 F -> a = m2 b b -> alpha = m2 (m2 a1 a1) a -> x0 = m2 a1 a ->
  m2 x0 x0 = m2 alpha a /\ (q2_add F alpha (q2_1 F) <> q2_0 F -> m2 (p2 (q2_add F alpha (q2_1 F)) (q - 1)) alpha = q2_1 F).
Proof.
  intros Q3 FR AD (e & Qe & E1) B0 EA EAl EX. split; [rewrite EX, EAl; ring|].
  intros N. assert (E0 : 0 <= e) by lia.
  assert (A2 : p2 b 2 = a) by (rewrite EA; replace 2 with (1 + 1) by lia; rewrite p2_add, p2_1 by lia; reflexivity).
  assert (AL : alpha = p2 b (q - 1)).
  { rewrite EAl, E1, <- A2, <- p2_mul, <- p2_add, <- p2_add by lia. f_equal. lia. }
  assert (AQ : m2 alpha (p2 alpha q) = q2_1 F).
  { rewrite AL, <- p2_mul, <- p2_add by nia. apply (p2_cancel b); [exact B0|]. transitivity b; [|ring].
    etransitivity; [|exact (FR b)]. replace (q * q) with (1 + (q - 1 + (q - 1) * q)) by ring. rewrite (p2_add b 1), p2_1 by nia. reflexivity. }
  apply (p2_cancel (q2_add F alpha (q2_1 F))); [exact N|]. transitivity (q2_add F alpha (q2_1 F)); [|ring].
  assert (P1 : p2 (q2_1 F) q = q2_1 F) by (apply (rpow_1_l _ _ _ _ _ _ r2)).
  transitivity (m2 (p2 (q2_add F alpha (q2_1 F)) q) alpha).
  - replace q with (1 + (q - 1)) at 2 by ring. rewrite (p2_add _ 1 (q - 1)), p2_1 by lia. ring.
  - rewrite AD, P1. transitivity (q2_add F (m2 alpha (p2 alpha q)) alpha); [ring|]. rewrite AQ. ring.
Qed.
Lemma q2_eqb_iff x y : q2_eqb F x y = true <-> x = y. Proof. exact (q2_eqb_eq F x y). Qed.
Theorem q2_sqrt_sound a s : q2_sqrt F a = Some s -> m2 s s = a.
Proof.
  unfold q2_sqrt. destruct (q2_is0 F a) eqn:Z0.
  - intros E. injection E as <-. assert (A0 : a = q2_0 F).
    { unfold q2_is0, kis0 in Z0. apply andb_true_iff in Z0 as [Z0 Z1]. apply keqb_eq in Z0, Z1. apply q2_eq; assumption. }
    rewrite A0. ring.
  - cbv zeta. match goal with |- context [q2_eqb F (q2_sq F ?u) a] => generalize u end. intros t. destruct (q2_eqb F (q2_sq F t) a) eqn:E; [|discriminate].
    intros H. injection H as <-. apply q2_eqb_iff in E. rewrite <- q2_sq_mul. exact E.
Qed.
Theorem q2_sqrt_complete a b : m2 b b = a -> exists s, q2_sqrt F a = Some s.
Proof.
  intros EB. unfold q2_sqrt. destruct (q2_is0 F a) eqn:Z0; [eexists; reflexivity|].
  fold sq_e1 sq_e2. rewrite !q2_pow_vartime_spec by (exact e1_wf || exact e2_wf). fold (p2 a (val sq_e1)).
  set (a1 := p2 a (val sq_e1)). set (alpha := m2 (q2_sq F a1) a). set (x0 := m2 a1 a).
  cbv zeta. assert (B0 : b <> q2_0 F).
  { intros ->. assert (a = q2_0 F) by (rewrite <- EB; ring). subst a. rewrite H in Z0. unfold q2_is0, q2_0, kis0 in Z0. cbn [c0 c1] in Z0.
    rewrite keqb_refl in Z0. exact (Bool.diff_true_false Z0). }
  assert (Q3 : 3 <= Q_MOD) by (rewrite Q_MOD_val; discriminate).
  assert (FR : forall z, p2 z (Q_MOD * Q_MOD) = z).
  { intros z. rewrite p2_mul by lia. unfold p2. rewrite !conj_pow. apply q2_eq; unfold q2_conj; cbn [c0 c1]; ring. }
  destruct (sq_unit Q_MOD a b alpha x0 a1) as [EX EI]; [exact Q3|exact FR|intros; apply add_pow2| |exact B0|symmetry; exact EB| |reflexivity|].
  { exists (val sq_e1). split; [symmetry; exact e1_val|reflexivity]. }
  { unfold alpha. rewrite q2_sq_mul. reflexivity. }
  destruct (q2_eqb F alpha (q2_neg F (q2_1 F))) eqn:EQ.
  - apply q2_eqb_iff in EQ. assert (H : q2_eqb F (q2_sq F (Q2 (- c1 x0)%fld (c0 x0))) a = true); [|rewrite H; eexists; reflexivity].
    apply q2_eqb_iff. rewrite q2_sq_mul. transitivity (q2_neg F (m2 x0 x0)); [clear; destruct x0 as [x y]; apply q2_eq; unfold q2_mul, q2_neg; cbn [c0 c1]; ring|].
    rewrite EX, EQ. ring.
  - assert (N : q2_add F alpha (q2_1 F) <> q2_0 F).
    { intros E. assert (E' : alpha = q2_neg F (q2_1 F)) by (transitivity (q2_sub F (q2_add F alpha (q2_1 F)) (q2_1 F)); [ring|rewrite E; ring]).
      apply q2_eqb_iff in E'. congruence. }
    specialize (EI N). fold (p2 (q2_add F alpha (q2_1 F)) (val sq_e2)).
    set (y := q2_add F alpha (q2_1 F)) in *.
    assert (H : q2_eqb F (q2_sq F (m2 (p2 y (val sq_e2)) x0)) a = true); [|rewrite H; eexists; reflexivity].
    apply q2_eqb_iff. rewrite q2_sq_mul. replace (Q_MOD - 1) with (val sq_e2 + val sq_e2) in EI by (pose proof e2_val; lia).
    rewrite p2_add in EI by (pose proof e2_val; lia).
    transitivity (m2 (m2 (p2 y (val sq_e2)) (p2 y (val sq_e2))) (m2 x0 x0)); [ring|]. rewrite EX.
    transitivity (m2 (m2 (m2 (p2 y (val sq_e2)) (p2 y (val sq_e2))) alpha) a); [ring|]. rewrite EI. ring.
Qed.

(** ** Gt: conjugation inverts the outputs of the final exponentiation. *)
Lemma gt_num : (Q_MOD ^ 12 - 1) / R_MOD * (1 + Q_MOD ^ 6) = (Q_MOD ^ 12 - 1) * ((Q_MOD ^ 2 + 1) * (NN / R_MOD)).
Proof. rewrite <- fe_num. ring. Qed.
Theorem gt_neg f g : fe f = Some g -> q12_mul F g (q12_conj F g) = q12_1 F.
Proof.
  intros H. assert (F0 : f <> q12_0 F) by (intros ->; rewrite final_exp_zero in H; discriminate).
  rewrite final_exp_pow in H by exact F0. apply some_inj in H. subst g.
  pose proof fe_pos as P.
  assert (P6 : 0 <= Q_MOD ^ 6) by (apply Z.pow_nonneg; pose proof qpos; lia).
  rewrite conj_pz. set (e := (Q_MOD ^ 12 - 1) / R_MOD) in *. rewrite <- (pz_1 (pz f e)) at 1. rewrite <- pz_add by lia.
  rewrite <- pz_mul by lia. unfold e. rewrite gt_num.
  assert (PA : 0 <= Q_MOD ^ 12 - 1) by (pose proof (Z.pow_pos_nonneg Q_MOD 12 qpos); lia).
  pose proof (Z.div_pos NN R_MOD ltac:(pose proof NNpos; lia) r_pos) as D.
  assert (PB : 0 <= (Q_MOD ^ 2 + 1) * (NN / R_MOD)) by (pose proof (Z.pow_pos_nonneg Q_MOD 2 qpos); apply Z.mul_nonneg_nonneg; lia).
  etransitivity; [exact (pz_mul f (Q_MOD ^ 12 - 1) _ PA PB)|].
  pose proof (pz_order f F0) as PO. revert PO. generalize (pz f (Q_MOD ^ 12 - 1)). intros u ->. apply pz_one.
Qed.
