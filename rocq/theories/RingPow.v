(** Powers in a commutative ring, the binomial theorem, and (a + b)^p = a^p + b^p in
    characteristic p. *)
From Coq Require Import ZArith List Lia Ring Znumtheory.
From Verif Require Import ExtSpec.
Import ListNotations.

Section RingPow.
Context {T : Type} (zero one : T) (add mul sub : T -> T -> T) (opp : T -> T).
Hypothesis RT : ring_theory zero one add mul sub opp (@eq T).
Add Ring tring : RT.
Local Notation pw := (rpow mul one).
Local Infix "+'" := add (at level 50, left associativity).
Local Infix "*'" := mul (at level 40, left associativity).

Lemma rpow_S x n : pw x (S n) = x *' pw x n. Proof. reflexivity. Qed.
Lemma rpow_add x m n : pw x (m + n) = pw x m *' pw x n.
Proof. induction m as [|m IH]; cbn [Nat.add rpow]; [ring|rewrite IH; ring]. Qed.
Lemma rpow_1_l n : pw one n = one. Proof. induction n as [|n IH]; cbn [rpow]; [reflexivity|rewrite IH; ring]. Qed.
Lemma rpow_mul x m n : pw x (m * n) = pw (pw x m) n.
Proof.
  induction n as [|n IH]; [rewrite Nat.mul_0_r; reflexivity|].
  rewrite Nat.mul_succ_r, Nat.add_comm, rpow_add, IH. reflexivity.
Qed.
Lemma rpow_mul_l x y n : pw (x *' y) n = pw x n *' pw y n.
Proof. induction n as [|n IH]; cbn [rpow]; [ring|rewrite IH; ring]. Qed.
Lemma rpow_1_r x : pw x 1 = x. Proof. cbn [rpow]. ring. Qed.
Lemma rpow_2 x : pw x 2 = x *' x. Proof. cbn [rpow]. ring. Qed.
Lemma rpow_3 x : pw x 3 = x *' x *' x. Proof. cbn [rpow]. ring. Qed.
Lemma rpow_0_l n : n <> O -> pw zero n = zero. Proof. destruct n; [congruence|]. intros _. cbn [rpow]. ring. Qed.

(** n-fold sums *)
Fixpoint nm (n : nat) (x : T) : T := match n with O => zero | S n => x +' nm n x end.
Lemma nm_add m n x : nm (m + n) x = nm m x +' nm n x.
Proof. induction m as [|m IH]; cbn [Nat.add nm]; [ring|rewrite IH; ring]. Qed.
Lemma nm_one n x : nm n x = nm n one *' x.
Proof. induction n as [|n IH]; cbn [nm]; [ring|rewrite IH; ring]. Qed.
Lemma nm_mul m n x : nm (m * n) x = nm m (nm n x).
Proof. induction m as [|m IH]; cbn [Nat.mul nm]; [reflexivity|]. rewrite nm_add, IH. reflexivity. Qed.

(** Binomial coefficients. *)
Fixpoint bin (n k : nat) : nat :=
  match n, k with
  | _, O => 1
  | O, S _ => 0
  | S n, S k => bin n k + bin n (S k)
  end.
Lemma bin_0_r n : bin n 0 = 1%nat. Proof. destruct n; reflexivity. Qed.
Lemma bin_S n k : bin (S n) (S k) = (bin n k + bin n (S k))%nat. Proof. reflexivity. Qed.
Lemma bin_gt n : forall k, (n < k)%nat -> bin n k = 0%nat.
Proof.
  induction n as [|n IH]; intros [|k] H; try lia; [reflexivity|]. rewrite bin_S, !IH by lia. reflexivity.
Qed.
Lemma bin_diag n : bin n n = 1%nat.
Proof. induction n as [|n IH]; [reflexivity|]. rewrite bin_S, IH, bin_gt by lia. reflexivity. Qed.
Lemma bin_absorb n : forall k, (S k * bin (S n) (S k) = S n * bin n k)%nat.
Proof.
  induction n as [|n IH]; intros k.
  - destruct k; cbn; lia.
  - destruct k as [|k].
    + pose proof (IH O) as H. rewrite (bin_S (S n) 0), !bin_0_r. rewrite bin_0_r in H. lia.
    + rewrite (bin_S (S n) (S k)). pose proof (IH k) as A. pose proof (IH (S k)) as C. rewrite (bin_S n k) in *. lia.
Qed.

(** sum_{k < len} f (s + k) *)
Fixpoint sm (f : nat -> T) (s len : nat) : T := match len with O => zero | S l => f s +' sm f (S s) l end.
Lemma sm_ext f g s l : (forall k, (s <= k < s + l)%nat -> f k = g k) -> sm f s l = sm g s l.
Proof. revert s. induction l as [|l IH]; intros s H; cbn [sm]; [reflexivity|]. rewrite H by lia. f_equal. apply IH. intros; apply H; lia. Qed.
Lemma sm_last f s l : sm f s (S l) = sm f s l +' f (s + l)%nat.
Proof.
  revert s. induction l as [|l IH]; intros s; [cbn [sm]; replace (s + 0)%nat with s by lia; ring|].
  change (f s +' sm f (S s) (S l) = (f s +' sm f (S s) l) +' f (s + S l)%nat). rewrite IH. replace (S s + l)%nat with (s + S l)%nat by lia. ring.
Qed.
Lemma sm_add f g s l : sm (fun k => f k +' g k) s l = sm f s l +' sm g s l.
Proof. revert s. induction l as [|l IH]; intros s; cbn [sm]; [ring|rewrite IH; ring]. Qed.
Lemma sm_scale c f s l : sm (fun k => c *' f k) s l = c *' sm f s l.
Proof. revert s. induction l as [|l IH]; intros s; cbn [sm]; [ring|rewrite IH; ring]. Qed.
Lemma sm_shift f s l : sm (fun k => f (S k)) s l = sm f (S s) l.
Proof. revert s. induction l as [|l IH]; intros s; cbn [sm]; [reflexivity|rewrite IH; reflexivity]. Qed.
Lemma sm_zero f s l : (forall k, (s <= k < s + l)%nat -> f k = zero) -> sm f s l = zero.
Proof. revert s. induction l as [|l IH]; intros s H; cbn [sm]; [reflexivity|]. rewrite H, IH; [ring|intros; apply H; lia|lia]. Qed.

Lemma binomial a b n : pw (a +' b) n = sm (fun k => nm (bin n k) (pw a k *' pw b (n - k))) 0 (S n).
Proof.
  induction n as [|n IH]; [cbn; ring|].
  rewrite rpow_S, IH.
  set (t := fun k => nm (bin n k) (pw a k *' pw b (n - k))).
  transitivity (sm (fun k => a *' t k) 0 (S n) +' sm (fun k => b *' t k) 0 (S n)); [rewrite !sm_scale; ring|].
  change (sm (fun k => nm (bin (S n) k) (pw a k *' pw b (S n - k))) 0 (S (S n)))
    with (nm (bin (S n) 0) (pw a 0 *' pw b (S n - 0)) +' sm (fun k => nm (bin (S n) k) (pw a k *' pw b (S n - k))) 1 (S n)).
  rewrite <- sm_shift.
  rewrite (sm_ext (fun k => nm (bin (S n) (S k)) (pw a (S k) *' pw b (S n - S k)))
     (fun k => a *' t k +' nm (bin n (S k)) (pw a (S k) *' pw b (n - k)))).
  2:{ intros k Hk. rewrite bin_S, nm_add. unfold t. rewrite (nm_one (bin n k) (pw a (S k) *' _)), (nm_one (bin n k) (pw a k *' _)). cbn [Nat.sub rpow]. ring. }
  rewrite sm_add.
  enough (E : sm (fun k => b *' t k) 0 (S n) = nm (bin (S n) 0) (pw a 0 *' pw b (S n - 0)) +' sm (fun k => nm (bin n (S k)) (pw a (S k) *' pw b (n - k))) 0 (S n))
    by (rewrite E; ring).
  rewrite sm_last. rewrite (sm_last (fun k => nm (bin n (S k)) _)). cbn [Nat.add]. rewrite (bin_gt n (S n)) by lia. cbn [nm].
  destruct n as [|n]; [cbn; ring|].
  rewrite (sm_ext (fun k => nm (bin (S n) (S k)) (pw a (S k) *' pw b (S n - k))) (fun k => b *' t (S k))).
  2:{ intros k Hk. unfold t. rewrite (nm_one (bin (S n) (S k)) (pw a (S k) *' pw b (S n - k))), (nm_one (bin (S n) (S k)) (pw a (S k) *' pw b (S n - S k))). replace (S n - k)%nat with (S (S n - S k)) by lia. rewrite !rpow_S. generalize (pw b (S n - S k)) (nm (bin (S n) (S k)) one) (pw a k). intros. ring. }
  rewrite (sm_shift (fun k => b *' t k)).
  transitivity (sm (fun k => b *' t k) 0 (S (S n))); [rewrite (sm_last _ 0 (S n)); cbn [Nat.add]; reflexivity|].
  cbn [sm]. fold (sm (fun k => b *' t k) 1 (S n)). 
  transitivity (b *' t 0%nat +' sm (fun k => b *' t k) 1 (S n)); [reflexivity|].
  replace (b *' t 0%nat) with (nm (bin (S (S n)) 0) (pw a 0 *' pw b (S (S n) - 0))).
  2:{ unfold t. rewrite !bin_0_r. cbn [nm rpow Nat.sub]. ring. }
  cbn [sm]. ring.
Qed.

Lemma prime_divides_bin p k : prime (Z.of_nat p) -> (0 < k < p)%nat -> exists c, bin p k = (c * p)%nat.
Proof.
  intros PR H. destruct p as [|n]; [lia|]. destruct k as [|k]; [lia|].
  pose proof (bin_absorb n k) as E.
  assert (D : (Z.of_nat (S n) | Z.of_nat (S k) * Z.of_nat (bin (S n) (S k)))%Z).
  { exists (Z.of_nat (bin n k)). rewrite <- !Nat2Z.inj_mul, E. f_equal. lia. }
  apply prime_mult in D; [|exact PR]. destruct D as [D|D].
  - apply Z.divide_pos_le in D; lia.
  - destruct D as [c Hc]. exists (Z.to_nat c). nia.
Qed.

Theorem freshman p a b : prime (Z.of_nat p) -> nm p one = zero -> pw (a +' b) p = pw a p +' pw b p.
Proof.
  intros PR CH. pose proof (prime_ge_2 _ PR) as P2. rewrite binomial.
  destruct p as [|n]; [lia|].
  change (sm (fun k => nm (bin (S n) k) (pw a k *' pw b (S n - k))) 0 (S (S n)))
    with (nm (bin (S n) 0) (pw a 0 *' pw b (S n - 0)) +' sm (fun k => nm (bin (S n) k) (pw a k *' pw b (S n - k))) 1 (S n)).
  rewrite sm_last, sm_zero.
  - cbn [Nat.add]. rewrite bin_diag, bin_0_r, Nat.sub_0_r, Nat.sub_diag. cbn [nm]. change (pw a 0) with one. change (pw b 0) with one. ring.
  - intros k Hk. destruct (prime_divides_bin (S n) k PR) as [c ->]; [lia|].
    rewrite nm_one, nm_mul, CH. rewrite nm_one. ring.
Qed.
End RingPow.

(** Remainders modulo a monic polynomial are unique. *)
Section Remainder.
Context {T : Type} (zero one : T) (add mul sub : T -> T -> T) (opp : T -> T).
Hypothesis RT : ring_theory zero one add mul sub opp (@eq T).
Add Ring tring2 : RT.
Lemma nth_poly_add p q k : nth k (poly_add add p q) zero = add (nth k p zero) (nth k q zero).
Proof.
  revert q k. induction p as [|x p IH]; intros [|y q] k; cbn [poly_add]; [destruct k; cbn; ring|destruct k; cbn [nth]; ring|destruct k; cbn [nth]; ring|].
  destruct k; cbn [nth]; [reflexivity|apply IH].
Qed.
Lemma nth_poly_scale c p k : nth k (poly_scale mul c p) zero = mul c (nth k p zero).
Proof. revert k. induction p as [|x p IH]; intros [|k]; cbn [poly_scale map nth]; try ring. apply IH. Qed.
Lemma poly_mul_zero q M : (forall k, nth k q zero = zero) -> forall k, nth k (poly_mul zero add mul q M) zero = zero.
Proof.
  induction q as [|x q IH]; intros H k; cbn [poly_mul]; [destruct k; reflexivity|].
  rewrite nth_poly_add, nth_poly_scale. pose proof (H O) as H0. cbn [nth] in H0. rewrite H0.
  assert (E : nth k (zero :: poly_mul zero add mul q M) zero = zero).
  { destruct k; cbn [nth]; [reflexivity|]. apply IH. intros j. exact (H (S j)). }
  rewrite E. ring.
Qed.
Lemma poly_mul_high n M : nth n M zero = one -> (forall k, (n < k)%nat -> nth k M zero = zero) ->
  forall q, (forall k, (n <= k)%nat -> nth k (poly_mul zero add mul q M) zero = zero) -> forall k, nth k q zero = zero.
Proof.
  intros Mn Mh. induction q as [|x q IH]; intros H k; [destruct k; reflexivity|]. cbn [poly_mul] in H.
  assert (Hq : forall k, nth k q zero = zero).
  { apply IH. intros j Hj. specialize (H (S j) ltac:(lia)). rewrite nth_poly_add, nth_poly_scale, Mh in H by lia. cbn [nth] in H. etransitivity; [|exact H]. ring. }
  destruct k; cbn [nth]; [|apply Hq]. specialize (H n (Nat.le_refl n)). rewrite nth_poly_add, nth_poly_scale, Mn in H.
  assert (E : nth n (zero :: poly_mul zero add mul q M) zero = zero).
  { destruct n; cbn [nth]; [reflexivity|]. apply poly_mul_zero, Hq. }
  rewrite E in H. etransitivity; [|exact H]. ring.
Qed.
Theorem remainder_unique n M p r s : nth n M zero = one -> (forall k, (n < k)%nat -> nth k M zero = zero) ->
  length r = n -> length s = n ->
  congruent zero add mul M p r -> congruent zero add mul M p s -> r = s.
Proof.
  intros Mn Mh Lr Ls [q Hq] [q' Hq'].
  assert (D : forall a b k, nth k (poly_mul zero add mul (poly_add add a (poly_scale mul (opp one) b)) M) zero
     = sub (nth k (poly_mul zero add mul a M) zero) (nth k (poly_mul zero add mul b M) zero)).
  { assert (Z : forall x k, nth k (poly_mul zero add mul (poly_scale mul (opp one) x) M) zero = opp (nth k (poly_mul zero add mul x M) zero)).
    { induction x as [|y x IH]; intros k; cbn [poly_scale map poly_mul]; [destruct k; cbn; ring|].
      rewrite !nth_poly_add, !nth_poly_scale. destruct k; cbn [nth]; [ring|]. fold (poly_scale mul (opp one) x). rewrite IH. generalize (nth k (poly_mul zero add mul x M) zero) (nth (S k) M zero). intros; ring. }
    induction a as [|x a IH]; intros b k; cbn [poly_add].
    - rewrite Z. cbn [poly_mul]. destruct k; cbn [nth]; ring.
    - destruct b as [|y b]; cbn [poly_scale map poly_mul].
      + rewrite !nth_poly_add, !nth_poly_scale. destruct k; cbn [nth]; [ring|]. destruct k; ring.
      + rewrite !nth_poly_add, !nth_poly_scale. destruct k; cbn [nth]; [ring|]. fold (poly_scale mul (opp one) b). rewrite IH. ring. }
  set (d := poly_add add q (poly_scale mul (opp one) q')).
  assert (DR : forall k, nth k (poly_mul zero add mul d M) zero = sub (nth k s zero) (nth k r zero)).
  { intros k. unfold d. rewrite D. pose proof (Hq k) as A. pose proof (Hq' k) as C. rewrite nth_poly_add in A, C. rewrite A in C.
    set (u := nth k (poly_mul zero add mul q M) zero) in *. set (w := nth k (poly_mul zero add mul q' M) zero) in *.
    transitivity (sub (sub (add u (nth k r zero)) (nth k r zero)) w); [ring|]. rewrite C. ring. }
  assert (Z : forall k, nth k d zero = zero).
  { apply (poly_mul_high n M Mn Mh). intros k Hk. rewrite DR, !nth_overflow by lia. ring. }
  apply (nth_ext _ _ zero zero); [lia|]. intros k _. pose proof (DR k) as E. rewrite (poly_mul_zero d M Z k) in E.
  revert E. generalize (nth k r zero) (nth k s zero). intros x y E. transitivity (sub y (sub y x)); [ring|]. rewrite <- E. ring.
Qed.
End Remainder.
