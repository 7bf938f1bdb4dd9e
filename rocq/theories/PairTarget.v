(** Roots of unity of a field as a commutative group, and the character z |-> z^e into it; the target
    group of the pairing. *)
From Coq Require Import ZArith List Bool Field Lia Eqdep_dec.
From Verif Require Import FieldMore Algebra GroupLib ExtModel ExtFrob PairingModel FinalExp PairingRefine PairingFinal.
Local Open Scope fld_scope.

Section Target.
Variable K : Fld.
Add Field tfield : (kth K).
Variable kp : K -> Z -> K.
Hypothesis kp_add : forall f a b, (0 <= a)%Z -> (0 <= b)%Z -> kp f (a + b)%Z = kp f a * kp f b.
Hypothesis kp_mul : forall f a b, (0 <= a)%Z -> (0 <= b)%Z -> kp f (a * b)%Z = kp (kp f a) b.
Hypothesis kp_0 : forall f, kp f 0%Z = 1.
Hypothesis kp_1 : forall f, kp f 1%Z = f.
Hypothesis kp_one : forall e, kp 1 e = 1.
Hypothesis kp_mul_l : forall a b e, kp (a * b) e = kp a e * kp b e.
Variables r e : Z.
Hypothesis r_pos : (0 < r)%Z.
Hypothesis e_pos : (0 <= e)%Z.
Hypothesis order : forall f, f <> 0 -> kp f (e * r)%Z = 1.

Definition rootb (z : K) : bool := keqb (kp z r) 1.
Definition root : Type := { z : K | rootb z = true }.
Definition rval (z : root) : K := proj1_sig z.
Lemma rval_root z : kp (rval z) r = 1. Proof. apply keqb_eq. exact (proj2_sig z). Qed.
Lemma root_eq (a b : root) : rval a = rval b -> a = b.
Proof. destruct a as [a HA], b as [b HB]; cbn. intros E. subst b. f_equal. apply UIP_dec, Bool.bool_dec. Qed.
Definition rmk (z : K) (H : kp z r = 1) : root := exist _ z (proj2 (keqb_eq _ _ _) H).
Lemma rone : kp 1 r = 1. Proof. apply kp_one. Qed.
Lemma rmul (a b : root) : kp (rval a * rval b) r = 1. Proof. rewrite kp_mul_l, !rval_root. ring. Qed.
Lemma rinv (a : root) : kp (kp (rval a) (r - 1)) r = 1.
Proof. rewrite <- kp_mul by lia. rewrite Z.mul_comm, kp_mul by lia. rewrite rval_root. apply kp_one. Qed.
Lemma rinv_l (a : root) : rval a * kp (rval a) (r - 1) = 1.
Proof. rewrite <- (kp_1 (rval a)) at 1. rewrite <- kp_add by lia. rewrite <- (rval_root a). f_equal. lia. Qed.
Definition tgrp : AbGrp.
Proof.
  refine (mkAb root (rmk 1 rone) (fun a b => rmk (rval a * rval b) (rmul a b)) (fun a => rmk (kp (rval a) (r - 1)) (rinv a)) _ _ _ _).
  - intros. apply root_eq. cbn. ring.
  - intros. apply root_eq. cbn. ring.
  - intros. apply root_eq. cbn. ring.
  - intros. apply root_eq. cbn. apply rinv_l.
Defined.
Lemma rval_add (a b : tgrp) : rval (aadd a b) = rval a * rval b. Proof. reflexivity. Qed.
Lemma rval_0 : rval (a0 : tgrp) = 1. Proof. reflexivity. Qed.
Lemma rval_nmul n (a : tgrp) : rval (nmul n a) = kp (rval a) (Z.of_nat n).
Proof.
  induction n as [|n IH]; [symmetry; apply kp_0|]. cbn [nmul]. rewrite rval_add, IH, Nat2Z.inj_succ, <- Z.add_1_l, kp_add, kp_1 by lia. reflexivity.
Qed.
Lemma rval_zmul k (a : tgrp) : (0 <= k)%Z -> rval (zmul k a) = kp (rval a) k.
Proof. intros H. rewrite <- (Z2Nat.id k H) at 1. rewrite zmul_nat, rval_nmul, Z2Nat.id by lia. reflexivity. Qed.
Lemma tgrp_killed (a : tgrp) : zmul r a = a0.
Proof. apply root_eq. rewrite rval_zmul by lia. apply rval_root. Qed.
Lemma tgrp_mult k (a : tgrp) : (k mod r = 0)%Z -> zmul k a = a0.
Proof. intros H. rewrite <- (zmul_mod _ r k a (tgrp_killed a)), H. reflexivity. Qed.
(** The character; its value at zero is irrelevant. *)
Definition chi0 (z : K) : K := if keqb z 0 then 1 else kp z e.
Lemma chi0_root z : kp (chi0 z) r = 1.
Proof. unfold chi0. destruct (keqb_spec K z 0) as [E|E]; [apply kp_one|]. rewrite <- kp_mul by lia. apply order, E. Qed.
Definition chi (z : K) : tgrp := rmk (chi0 z) (chi0_root z).
Lemma chi_val z : z <> 0 -> rval (chi z) = kp z e.
Proof. intros H. cbn. unfold chi0. destruct (keqb_spec K z 0); [tauto|reflexivity]. Qed.
Lemma chi_mul a c : a <> 0 -> c <> 0 -> chi (a * c) = aadd (chi a) (chi c).
Proof. intros A C. apply root_eq. rewrite rval_add, !chi_val by (try apply kmul_neq0; assumption). apply kp_mul_l. Qed.
Lemma chi_pow a k : (0 <= k)%Z -> a <> 0 -> kp a k <> 0 -> chi (kp a k) = zmul k (chi a).
Proof. intros H A N. apply root_eq. rewrite rval_zmul by exact H. rewrite !chi_val by assumption. rewrite <- !kp_mul by lia. f_equal. lia. Qed.
End Target.
