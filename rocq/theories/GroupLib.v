(** Commutative groups as data, integer multiples and finite sums. *)
From Coq Require Import ZArith List Bool Lia Permutation.
Import ListNotations.
Local Open Scope Z_scope.

Record AbGrp := mkAb {
  acar :> Type;
  a0 : acar; aadd : acar -> acar -> acar; aneg : acar -> acar;
  aassoc : forall x y z, aadd x (aadd y z) = aadd (aadd x y) z;
  acomm : forall x y, aadd x y = aadd y x;
  aid : forall x, aadd a0 x = x;
  ainv : forall x, aadd x (aneg x) = a0
}.
Arguments a0 {_}. Arguments aadd {_}. Arguments aneg {_}.

Section Facts.
Variable A : AbGrp.
Implicit Types x y z : A.
Local Infix "+!" := aadd (at level 50, left associativity).
Lemma aid_r x : x +! a0 = x. Proof. rewrite acomm. apply aid. Qed.
Lemma ainv_l x : aneg x +! x = a0. Proof. rewrite acomm. apply ainv. Qed.
Lemma acancel x y z : x +! y = x +! z -> y = z.
Proof. intros E. rewrite <- (aid A y), <- (aid A z), <- (ainv_l x), <- !aassoc, E. reflexivity. Qed.
Lemma aneg_unique x y : x +! y = a0 -> y = aneg x.
Proof. intros E. apply (acancel x). rewrite E, ainv. reflexivity. Qed.
Lemma aneg_0 : aneg a0 = (a0 : A). Proof. symmetry. apply aneg_unique, aid. Qed.
Lemma aneg_neg x : aneg (aneg x) = x. Proof. symmetry. apply aneg_unique, ainv_l. Qed.
Lemma aswap x y z t : (x +! y) +! (z +! t) = (x +! z) +! (y +! t).
Proof. rewrite !aassoc. f_equal. rewrite <- !aassoc. f_equal. apply acomm. Qed.
Lemma aneg_add x y : aneg (x +! y) = aneg x +! aneg y.
Proof. symmetry. apply aneg_unique. rewrite aswap, !ainv, aid. reflexivity. Qed.
(** Multiples. *)
Fixpoint nmul (n : nat) x : A := match n with O => a0 | S n => x +! nmul n x end.
Lemma nmul_add n m x : nmul (n + m) x = nmul n x +! nmul m x.
Proof. induction n as [|n IH]; cbn; [rewrite aid; reflexivity|]. rewrite IH, aassoc. reflexivity. Qed.
Lemma nmul_dist n x y : nmul n (x +! y) = nmul n x +! nmul n y.
Proof. induction n as [|n IH]; cbn; [rewrite aid; reflexivity|]. rewrite IH. apply aswap. Qed.
Lemma nmul_0 n : nmul n a0 = (a0 : A). Proof. induction n as [|n IH]; cbn; [reflexivity|]. rewrite IH. apply aid. Qed.
Lemma nmul_neg n x : nmul n (aneg x) = aneg (nmul n x).
Proof. apply aneg_unique. rewrite <- nmul_dist, ainv. apply nmul_0. Qed.
Lemma nmul_mul n m x : nmul (n * m) x = nmul n (nmul m x).
Proof. induction n as [|n IH]; cbn; [reflexivity|]. rewrite nmul_add, IH. reflexivity. Qed.
Definition zmul (k : Z) x : A := if k <? 0 then aneg (nmul (Z.to_nat (- k)) x) else nmul (Z.to_nat k) x.
Lemma zmul_nat n x : zmul (Z.of_nat n) x = nmul n x.
Proof. unfold zmul. destruct (Z.ltb_spec (Z.of_nat n) 0); [lia|]. rewrite Nat2Z.id. reflexivity. Qed.
Lemma zmul_0 x : zmul 0 x = a0. Proof. reflexivity. Qed.
Lemma zmul_1 x : zmul 1 x = x. Proof. cbn. apply aid_r. Qed.
Lemma zmul_opp k x : zmul (- k) x = aneg (zmul k x).
Proof.
  unfold zmul. destruct (Z.ltb_spec (- k) 0), (Z.ltb_spec k 0); try lia.
  - rewrite Z.opp_involutive. reflexivity.
  - rewrite aneg_neg. reflexivity.
  - assert (k = 0) as -> by lia. cbn. rewrite aneg_0. reflexivity.
Qed.
Lemma zmul_diff n m x : zmul (Z.of_nat n - Z.of_nat m) x = nmul n x +! aneg (nmul m x).
Proof.
  destruct (Nat.le_gt_cases m n) as [L|L].
  - replace (Z.of_nat n - Z.of_nat m) with (Z.of_nat (n - m)) by lia. rewrite zmul_nat.
    replace n with ((n - m) + m)%nat at 2 by lia. rewrite nmul_add, <- aassoc, ainv, aid_r. reflexivity.
  - replace (Z.of_nat n - Z.of_nat m) with (- Z.of_nat (m - n)) by lia. rewrite zmul_opp, zmul_nat.
    replace m with ((m - n) + n)%nat at 2 by lia. rewrite nmul_add, aneg_add, (acomm A (aneg _)), aassoc, ainv, aid. reflexivity.
Qed.
Lemma z_diff k : exists n m, k = Z.of_nat n - Z.of_nat m.
Proof. exists (Z.to_nat k), (Z.to_nat (- k)). lia. Qed.
Lemma zmul_add j k x : zmul (j + k) x = zmul j x +! zmul k x.
Proof.
  destruct (z_diff j) as (n & m & ->), (z_diff k) as (n' & m' & ->).
  replace (Z.of_nat n - Z.of_nat m + (Z.of_nat n' - Z.of_nat m')) with (Z.of_nat (n + n') - Z.of_nat (m + m')) by lia.
  rewrite !zmul_diff, !nmul_add, aneg_add. apply aswap.
Qed.
Lemma zmul_sub j k x : zmul (j - k) x = zmul j x +! aneg (zmul k x).
Proof. unfold Z.sub. rewrite zmul_add, zmul_opp. reflexivity. Qed.
Lemma zmul_dist k x y : zmul k (x +! y) = zmul k x +! zmul k y.
Proof. unfold zmul. destruct (k <? 0); rewrite nmul_dist; [apply aneg_add|reflexivity]. Qed.
Lemma zmul_a0 k : zmul k a0 = (a0 : A).
Proof. unfold zmul. destruct (k <? 0); rewrite nmul_0; [apply aneg_0|reflexivity]. Qed.
Lemma zmul_aneg k x : zmul k (aneg x) = aneg (zmul k x).
Proof. unfold zmul. destruct (k <? 0); rewrite nmul_neg; reflexivity. Qed.
Lemma zmul_mul_nat n k x : zmul (Z.of_nat n * k) x = nmul n (zmul k x).
Proof.
  induction n as [|n IH]; [reflexivity|]. replace (Z.of_nat (S n) * k) with (k + Z.of_nat n * k) by lia.
  rewrite zmul_add, IH. reflexivity.
Qed.
Lemma zmul_mul j k x : zmul (j * k) x = zmul j (zmul k x).
Proof.
  unfold zmul at 2. destruct (Z.ltb_spec j 0).
  - rewrite <- zmul_mul_nat, <- zmul_opp, Z2Nat.id by lia. f_equal. ring.
  - rewrite <- zmul_mul_nat, Z2Nat.id by lia. reflexivity.
Qed.
Lemma zmul_double k x : zmul (2 * k) x = zmul k x +! zmul k x.
Proof. replace (2 * k) with (k + k) by lia. apply zmul_add. Qed.
(** Elements killed by [r] only see scalars modulo [r]. *)
Lemma zmul_mod r k x : zmul r x = a0 -> zmul (k mod r) x = zmul k x.
Proof.
  intros H. destruct (Z.eq_dec r 0) as [->|N]; [rewrite Zmod_0_r; reflexivity|].
  rewrite (Z.div_mod k r N) at 2. rewrite zmul_add, (Z.mul_comm r), zmul_mul, H, zmul_a0, aid. reflexivity.
Qed.
Lemma zmul_eqmod r j k x : zmul r x = a0 -> j mod r = k mod r -> zmul j x = zmul k x.
Proof. intros H E. rewrite <- (zmul_mod r j x H), <- (zmul_mod r k x H), E. reflexivity. Qed.
(** Sums. *)
Definition asum (l : list A) : A := fold_right aadd a0 l.
Lemma asum_app l1 l2 : asum (l1 ++ l2) = asum l1 +! asum l2.
Proof. induction l1 as [|x l IH]; cbn; [rewrite aid; reflexivity|]. rewrite <- aassoc. f_equal. exact IH. Qed.
Lemma asum_map_add {B} (f g : B -> A) l : asum (map (fun i => f i +! g i) l) = asum (map f l) +! asum (map g l).
Proof. induction l as [|x l IH]; cbn; [rewrite aid; reflexivity|]. unfold asum in IH. rewrite IH. apply aswap. Qed.
Lemma asum_map_zmul {B} k (f : B -> A) l : asum (map (fun i => zmul k (f i)) l) = zmul k (asum (map f l)).
Proof. induction l as [|x l IH]; cbn; [rewrite zmul_a0; reflexivity|]. unfold asum in IH. rewrite IH. symmetry. apply zmul_dist. Qed.
Lemma asum_fold_left l : forall x, fold_left aadd l x = x +! asum l.
Proof. induction l as [|y l IH]; intros x; cbn; [rewrite aid_r; reflexivity|]. rewrite IH. symmetry. apply aassoc. Qed.
Lemma asum_perm l1 l2 : Permutation l1 l2 -> asum l1 = asum l2.
Proof.
  induction 1 as [|x l l' _ IH|x y l|l l' l'' _ IH1 _ IH2]; cbn; [reflexivity|unfold asum in IH; rewrite IH; reflexivity| |].
  - rewrite !aassoc. f_equal. apply acomm.
  - unfold asum in *. rewrite IH1. exact IH2.
Qed.
End Facts.
Arguments nmul {_}. Arguments zmul {_}. Arguments asum {_}.

(** Homomorphisms. *)
Section Hom.
Variables A B : AbGrp.
Variable h : A -> B.
Hypothesis Hadd : forall x y, h (aadd x y) = aadd (h x) (h y).
Lemma hom_0 : h a0 = a0.
Proof. apply (acancel B (h a0)). rewrite <- Hadd, aid, aid_r. reflexivity. Qed.
Lemma hom_neg x : h (aneg x) = aneg (h x).
Proof. apply aneg_unique. rewrite <- Hadd, ainv. apply hom_0. Qed.
Lemma hom_nmul n x : h (nmul n x) = nmul n (h x).
Proof. induction n as [|n IH]; cbn; [apply hom_0|]. rewrite Hadd, IH. reflexivity. Qed.
Lemma hom_zmul k x : h (zmul k x) = zmul k (h x).
Proof. unfold zmul. destruct (k <? 0); [rewrite hom_neg|]; rewrite hom_nmul; reflexivity. Qed.
Lemma hom_sum l : h (asum l) = asum (map h l).
Proof. induction l as [|x l IH]; cbn; [apply hom_0|]. rewrite Hadd. f_equal. exact IH. Qed.
End Hom.
