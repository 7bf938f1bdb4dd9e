(** Facts on coefficient lists, evaluation, division by a linear factor and trimming. *)
From Coq Require Import ZArith List Bool Lia Field.
From Verif Require Import Algebra PolyModel PolySpec.
Import ListNotations.
Local Open Scope fld_scope.

Section P.
Variable F : Fld.
Add Field pfield : (kth F).
Implicit Types (p q l : list F) (x y a : F) (f g : nat -> F).

(** ** Sums *)
Lemma sumn_ext f g n : (forall i, (i < n)%nat -> f i = g i) -> sumn f n = sumn g n.
Proof. intros H. induction n as [|n IH]; cbn; [reflexivity|]. rewrite IH, H by (intros; try apply H; lia). reflexivity. Qed.
Lemma sumn_add f g n : sumn (fun i => f i + g i) n = sumn f n + sumn g n.
Proof. induction n as [|n IH]; cbn; [ring|]. rewrite IH. ring. Qed.
Lemma sumn_sub f g n : sumn (fun i => f i - g i) n = sumn f n - sumn g n.
Proof. induction n as [|n IH]; cbn; [ring|]. rewrite IH. ring. Qed.
Lemma sumn_scale c f n : sumn (fun i => c * f i) n = c * sumn f n.
Proof. induction n as [|n IH]; cbn; [ring|]. rewrite IH. ring. Qed.
Lemma sumn_0 f n : (forall i, (i < n)%nat -> f i = 0) -> sumn f n = 0.
Proof. intros H. induction n as [|n IH]; cbn; [reflexivity|]. rewrite IH, H by (intros; try apply H; lia). ring. Qed.
Lemma sumn_split f n m : sumn f (n + m) = sumn f n + sumn (fun i => f (n + i)%nat) m.
Proof. induction m as [|m IH]; cbn; [rewrite Nat.add_0_r; ring|]. rewrite Nat.add_succ_r. cbn. rewrite IH. ring. Qed.
Lemma sumn_first f n : sumn f (S n) = f 0%nat + sumn (fun i => f (S i)) n.
Proof. change (S n) with (1 + n)%nat. rewrite sumn_split. cbn. ring. Qed.
Lemma sumn_single f n j : (j < n)%nat -> (forall i, (i < n)%nat -> i <> j -> f i = 0) -> sumn f n = f j.
Proof.
  intros Hj H. induction n as [|n IH]; [lia|]. cbn. destruct (Nat.eq_dec j n) as [->|N].
  - rewrite sumn_0 by (intros i Hi; apply H; lia). ring.
  - rewrite IH by (intros; try apply H; lia). rewrite (H n) by lia. ring.
Qed.
Lemma sumn_swap (f : nat -> nat -> F) n m : sumn (fun i => sumn (f i) m) n = sumn (fun j => sumn (fun i => f i j) n) m.
Proof.
  induction n as [|n IH]; cbn; [symmetry; apply sumn_0; reflexivity|]. rewrite IH, <- sumn_add. apply sumn_ext. reflexivity.
Qed.
Lemma sumn_zeros f n m : (n <= m)%nat -> (forall i, (n <= i < m)%nat -> f i = 0) -> sumn f m = sumn f n.
Proof.
  intros L H. replace m with (n + (m - n))%nat by lia. rewrite sumn_split, (sumn_0 (fun i => f (n + i)%nat)); [ring|].
  intros i Hi. apply H. lia.
Qed.

(** ** Tables *)
Definition tab f n : list F := map f (seq 0 n).
Lemma tab_length f n : length (tab f n) = n. Proof. unfold tab. rewrite map_length, seq_length. reflexivity. Qed.
Lemma nth_tab f n i : (i < n)%nat -> nth i (tab f n) 0 = f i.
Proof. intros H. unfold tab. rewrite (nth_indep _ 0 (f 0%nat)) by (rewrite map_length, seq_length; exact H). rewrite map_nth, seq_nth by exact H. reflexivity. Qed.
Lemma nth_error_tab f n i : (i < n)%nat -> nth_error (tab f n) i = Some (f i).
Proof. intros H. rewrite (nth_error_nth' _ 0) by (rewrite tab_length; exact H). rewrite nth_tab by exact H. reflexivity. Qed.
Lemma tab_ext f g n : (forall i, (i < n)%nat -> f i = g i) -> tab f n = tab g n.
Proof. intros H. apply map_ext_in. intros i Hi. apply in_seq in Hi. apply H. lia. Qed.
Lemma list_tab l : l = tab (fun i => nth i l 0) (length l).
Proof.
  apply (nth_ext _ _ 0 0); [rewrite tab_length; reflexivity|]. intros i Hi. rewrite nth_tab by exact Hi. reflexivity.
Qed.
Lemma seq_shift_map n m : forall s, seq (n + s) m = map (fun i => (n + i)%nat) (seq s m).
Proof. induction m as [|m IH]; intros s; cbn; [reflexivity|]. f_equal. rewrite <- IH. f_equal. lia. Qed.
Lemma tab_app f n m : tab f (n + m) = tab f n ++ tab (fun i => f (n + i)%nat) m.
Proof.
  unfold tab. rewrite seq_app, map_app. f_equal. rewrite Nat.add_0_l. replace n with (n + 0)%nat at 1 by lia.
  rewrite seq_shift_map, map_map. reflexivity.
Qed.
Lemma tab_map (h : F -> F) f n : map h (tab f n) = tab (fun i => h (f i)) n.
Proof. unfold tab. apply map_map. Qed.
Lemma tab_cons f n : tab f (S n) = f 0%nat :: tab (fun i => f (S i)) n.
Proof. unfold tab. cbn. f_equal. rewrite <- seq_shift, map_map. reflexivity. Qed.
Lemma powers_tab (w t : F) n : powers F w t n = tab (fun i => w * kpow t i) n.
Proof.
  revert w. induction n as [|n IH]; intros w; [reflexivity|]. cbn [powers]. rewrite tab_cons, IH. f_equal; [cbn; ring|].
  apply tab_ext. intros i _. cbn. ring.
Qed.

(** ** Evaluation *)
Lemma peval_nil x : peval [] x = 0. Proof. reflexivity. Qed.
Lemma peval_cons c p x : peval (c :: p) x = c + x * peval p x.
Proof.
  unfold peval. cbn [length]. rewrite sumn_first. cbn [nth kpow]. rewrite <- sumn_scale. rewrite (sumn_ext _ (fun i => x * (nth i p 0 * kpow x i))); [ring|].
  intros i _. cbn. ring.
Qed.
Lemma peval_pad p x n : (length p <= n)%nat -> peval p x = sumn (fun i => nth i p 0 * kpow x i) n.
Proof.
  intros L. unfold peval. symmetry. apply sumn_zeros; [exact L|]. intros i Hi. rewrite nth_overflow by lia. ring.
Qed.
Lemma peval_same p q x : same_poly p q -> peval p x = peval q x.
Proof.
  intros H. rewrite (peval_pad p x (Nat.max (length p) (length q))), (peval_pad q x (Nat.max (length p) (length q))) by lia.
  apply sumn_ext. intros i _. rewrite H. reflexivity.
Qed.
Lemma peval_tab f n x : peval (tab f n) x = sumn (fun i => f i * kpow x i) n.
Proof. unfold peval. rewrite tab_length. apply sumn_ext. intros i Hi. rewrite nth_tab by exact Hi. reflexivity. Qed.
Lemma evaluate_ok p x : evaluate F p x = peval p x.
Proof.
  unfold evaluate. rewrite <- fold_left_rev_right, rev_involutive. induction p as [|c p IH]; [reflexivity|].
  cbn [fold_right]. rewrite IH, peval_cons. ring.
Qed.

(** ** Trimming *)
Lemma drop_zeros_spec l : exists z, l = repeat 0 z ++ drop_zeros F l /\ (drop_zeros F l = [] \/ exists x r, drop_zeros F l = x :: r /\ x <> 0).
Proof.
  induction l as [|x l IH]; [exists 0%nat; auto|]. cbn [drop_zeros]. unfold kis0. destruct (keqb_spec F x 0) as [->|N].
  - destruct IH as (z & E & H). exists (S z). cbn. split; [f_equal; exact E|exact H].
  - exists 0%nat. split; [reflexivity|]. right. eauto.
Qed.
Lemma trim_spec l : exists z, l = format_degree F l ++ repeat 0 z /\ trimmed (format_degree F l).
Proof.
  unfold format_degree. destruct (drop_zeros_spec (rev l)) as (z & E & H). exists z. split.
  - rewrite <- (rev_involutive l) at 1. rewrite E at 1. rewrite rev_app_distr. f_equal.
    clear. induction z as [|z IH]; [reflexivity|]. cbn. rewrite IH. clear. induction z as [|z IH]; [reflexivity|]. cbn. rewrite IH. reflexivity.
  - destruct H as [->|(x & r & -> & N)]; [left; reflexivity|]. right. cbn. rewrite last_last. exact N.
Qed.
Lemma trim_same l : same_poly (format_degree F l) l.
Proof.
  intros i. destruct (trim_spec l) as (z & E & _). rewrite E at 2.
  destruct (Nat.lt_ge_cases i (length (format_degree F l))) as [L|L]; [rewrite app_nth1 by exact L; reflexivity|].
  rewrite app_nth2, nth_overflow by exact L. symmetry. rewrite nth_repeat. reflexivity.
Qed.
Lemma trim_length l : (length (format_degree F l) <= length l)%nat.
Proof. destruct (trim_spec l) as (z & E & _). rewrite E at 2. rewrite app_length. lia. Qed.
Lemma last_nth l : l <> [] -> last l 0 = nth (length l - 1) l 0.
Proof.
  induction l as [|x l IH]; [congruence|]. intros _. destruct l as [|y l]; [reflexivity|].
  change (last (x :: y :: l) 0) with (last (y :: l) 0). rewrite IH by discriminate. cbn [length].
  replace (S (S (length l)) - 1)%nat with (S (S (length l) - 1)) by lia. reflexivity.
Qed.
Lemma trimmed_unique p q : trimmed p -> trimmed q -> same_poly p q -> p = q.
Proof.
  intros HP HQ H. assert (L : length p = length q).
  { assert (Q : forall p q, trimmed q -> same_poly p q -> (length q <= length p)%nat).
    { clear. intros p q HQ H. destruct (Nat.le_gt_cases (length q) (length p)) as [|G]; [assumption|exfalso].
      destruct HQ as [->|N]; [cbn in G; lia|]. rewrite last_nth in N by (intros ->; cbn in G; lia).
      apply N. rewrite <- H. apply nth_overflow. lia. }
    pose proof (Q p q HQ H). pose proof (Q q p HP (fun i => eq_sym (H i))). lia. }
  apply (nth_ext _ _ 0 0); [exact L|]. intros i _. apply H.
Qed.
Lemma trim_unique p q : same_poly p q -> format_degree F p = format_degree F q.
Proof.
  intros H. apply trimmed_unique; try (destruct (trim_spec p), (trim_spec q); tauto). 
  intros i. rewrite !trim_same. apply H.
Qed.
Lemma trim_trimmed l : trimmed (format_degree F l). Proof. destruct (trim_spec l) as (z & _ & H). exact H. Qed.
Lemma trim_id p : trimmed p -> format_degree F p = p.
Proof. intros H. apply trimmed_unique; [apply trim_trimmed|exact H|apply trim_same]. Qed.

(** ** Pointwise operations *)
Lemma pad_zip_nth op l r i : op 0 0 = 0 -> (length r <= length l)%nat -> nth i (pad_zip F op l r) 0 = op (nth i l 0) (nth i r 0).
Proof.
  intros H0. revert r i. induction l as [|a l IH]; intros r i L.
  - destruct r; [|cbn in L; lia]. destruct i; cbn; rewrite H0; reflexivity.
  - destruct r as [|b r]; destruct i as [|i]; cbn; try reflexivity.
    + rewrite IH by (cbn; lia). destruct i; reflexivity.
    + apply IH. cbn in L. lia.
Qed.
Lemma zip_pad_nth op l r i : op 0 0 = 0 -> (length l <= length r)%nat -> nth i (zip_pad F op l r) 0 = op (nth i l 0) (nth i r 0).
Proof.
  intros H0. revert l i. induction r as [|b r IH]; intros l i L.
  - destruct l; [|cbn in L; lia]. destruct i; cbn; rewrite H0; reflexivity.
  - destruct l as [|a l]; destruct i as [|i]; cbn; try reflexivity.
    + rewrite IH by (cbn; lia). destruct i; reflexivity.
    + apply IH. cbn in L. lia.
Qed.
Lemma pad_zip_length op l r : length (pad_zip F op l r) = length l.
Proof. revert r. induction l as [|a l IH]; intros [|b r]; cbn; rewrite ?IH; reflexivity. Qed.
Lemma zip_pad_length op l r : length (zip_pad F op l r) = length r.
Proof. revert l. induction r as [|b r IH]; intros [|a l]; cbn; rewrite ?IH; reflexivity. Qed.
Lemma longer_spec l r : longer F l r = true <-> (length r < length l)%nat. Proof. apply Nat.ltb_lt. Qed.
Lemma poly_add_nth l r i : nth i (poly_add F l r) 0 = nth i l 0 + nth i r 0.
Proof.
  unfold poly_add, coeffs_new. rewrite trim_same. destruct (longer F l r) eqn:E.
  - apply longer_spec in E. apply pad_zip_nth; [ring|lia].
  - assert (~ (length r < length l)%nat) by (rewrite <- longer_spec; congruence). rewrite pad_zip_nth by (ring || lia). ring.
Qed.
Lemma poly_sub_nth l r i : nth i (poly_sub F l r) 0 = if longer F l r then nth i l 0 - nth i r 0 else nth i r 0 - nth i l 0.
Proof.
  unfold poly_sub, coeffs_new. rewrite trim_same. destruct (longer F l r) eqn:E.
  - apply longer_spec in E. apply pad_zip_nth; [ring|lia].
  - assert (~ (length r < length l)%nat) by (rewrite <- longer_spec; congruence). apply pad_zip_nth; [ring|lia].
Qed.
Lemma nth_map0 (h : F -> F) l i : h 0 = 0 -> nth i (map h l) 0 = h (nth i l 0).
Proof. intros H. rewrite <- H at 1. apply map_nth. Qed.
Lemma poly_scale_nth l s i : nth i (poly_scale F l s) 0 = nth i l 0 * s.
Proof. unfold poly_scale, coeffs_new. rewrite trim_same. apply (nth_map0 (fun c => c * s)). ring. Qed.
Lemma points_sub_nth l r i : nth i (points_sub F l r) 0 = nth i l 0 - nth i r 0.
Proof.
  unfold points_sub. destruct (longer F l r) eqn:E.
  - apply longer_spec in E. apply pad_zip_nth; [ring|lia].
  - assert (~ (length r < length l)%nat) by (rewrite <- longer_spec; congruence). apply zip_pad_nth; [ring|lia].
Qed.
Lemma points_mul_nth l r i : nth i (points_mul F l r) 0 = nth i l 0 * nth i r 0.
Proof.
  unfold points_mul. destruct (longer F l r) eqn:E.
  - apply longer_spec in E. apply pad_zip_nth; [ring|lia].
  - assert (~ (length r < length l)%nat) by (rewrite <- longer_spec; congruence). rewrite pad_zip_nth by (ring || lia). ring.
Qed.
Lemma points_sub_length l r : length (points_sub F l r) = Nat.max (length l) (length r).
Proof.
  unfold points_sub. destruct (longer F l r) eqn:E; rewrite ?pad_zip_length, ?zip_pad_length.
  - apply longer_spec in E. lia.
  - assert (~ (length r < length l)%nat) by (rewrite <- longer_spec; congruence). lia.
Qed.
Lemma points_mul_length l r : length (points_mul F l r) = Nat.max (length l) (length r).
Proof.
  unfold points_mul. destruct (longer F l r) eqn:E; rewrite ?pad_zip_length.
  - apply longer_spec in E. lia.
  - assert (~ (length r < length l)%nat) by (rewrite <- longer_spec; congruence). lia.
Qed.
Lemma peval_nth_op (op : F -> F -> F) p q r x : (forall a b c, op a b * c = op (a * c) (b * c)) -> op 0 0 = 0 ->
  (forall a b c d, op a b + op c d = op (a + c) (b + d)) ->
  (forall i, nth i r 0 = op (nth i p 0) (nth i q 0)) -> peval r x = op (peval p x) (peval q x).
Proof.
  intros Hm H0 Ha H. set (n := Nat.max (length r) (Nat.max (length p) (length q))).
  rewrite (peval_pad r x n), (peval_pad p x n), (peval_pad q x n) by lia.
  rewrite (sumn_ext _ (fun i => op (nth i p 0 * kpow x i) (nth i q 0 * kpow x i))) by (intros i _; rewrite H; apply Hm).
  clear H. induction n as [|n IH]; cbn; [symmetry; exact H0|]. rewrite IH. apply Ha.
Qed.

(** ** Division by X - a *)
Lemma div_scan_length a w l : length (div_scan F a w l) = length l.
Proof. revert w. induction l as [|c l IH]; intros w; cbn; [reflexivity|]. rewrite IH. reflexivity. Qed.
Lemma div_scan_snoc a l c : forall w, div_scan F a w (l ++ [c]) = div_scan F a w l ++ [c + fold_left (fun w c => (w + c) * a) l w].
Proof. induction l as [|d l IH]; intros w; cbn; [f_equal; ring|]. rewrite IH. reflexivity. Qed.
Lemma div_scan_rev a p : rev (div_scan F a 0 (rev p)) = map (fun i => peval (skipn i p) a) (seq 0 (length p)).
Proof.
  induction p as [|c p IH]; [reflexivity|]. cbn [rev]. rewrite div_scan_snoc, rev_app_distr. cbn [rev app length].
  change (seq 0 (S (length p))) with (0%nat :: seq 1 (length p)). rewrite <- seq_shift. cbn [map]. rewrite map_map. f_equal.
  - cbn [skipn]. rewrite peval_cons. f_equal. rewrite <- fold_left_rev_right, rev_involutive.
    clear. induction p as [|d p IH]; [cbn; unfold peval; cbn; ring|]. cbn [fold_right]. rewrite IH, peval_cons. ring.
  - rewrite IH. apply map_ext. reflexivity.
Qed.
Lemma rev_removelast (l : list F) : rev (removelast l) = tl (rev l).
Proof.
  destruct l as [|y l0]; [reflexivity|]. destruct (exists_last (l := y :: l0) ltac:(discriminate)) as (l' & x & E). rewrite E.
  rewrite removelast_last, rev_app_distr. reflexivity.
Qed.
Lemma divide_tab p a : divide F p a = tab (fun i => peval (skipn (S i) p) a) (length p - 1).
Proof.
  unfold divide. rewrite rev_removelast, div_scan_rev. destruct p as [|c p]; [reflexivity|].
  cbn [length]. change (seq 0 (S (length p))) with (0%nat :: seq 1 (length p)). cbn [map tl]. rewrite <- seq_shift, map_map.
  replace (S (length p) - 1)%nat with (length p) by lia. reflexivity.
Qed.
Lemma divide_ok p a x : peval p x = (x - a) * peval (divide F p a) x + peval p a.
Proof.
  rewrite divide_tab. induction p as [|c p IH]; [cbn; unfold peval; cbn; ring|].
  cbn [length]. replace (S (length p) - 1)%nat with (length p) by lia. rewrite (peval_cons c p x), (peval_cons c p a).
  change (tab (fun i => peval (skipn (S i) (c :: p)) a) (length p)) with (tab (fun i => peval (skipn i p) a) (length p)).
  destruct p as [|d p]; [unfold peval; cbn; ring|]. set (p' := d :: p) in *.
  change (length p') with (S (length p)) in *. replace (S (length p) - 1)%nat with (length p) in IH by lia.
  rewrite tab_cons, peval_cons. change (skipn 0 p') with p'. rewrite IH at 1. ring.
Qed.
End P.
