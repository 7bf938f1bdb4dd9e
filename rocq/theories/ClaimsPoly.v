(** Properties C26 (polynomials) and C27 (radix-2 transforms). *)
From Coq Require Import ZArith List Bool Lia Field.
From Verif Require Import LimbModel LimbProofs MontProofs FieldModel FieldSpec FieldProofs FieldMore ClaimsField Algebra CurveParams PolyModel PolySpec PolyProofs FftProofs FftInverse.
Import ListNotations.
Local Open Scope fld_scope.

(** ** C26 *)
Section C26.
Variable K : Fld.
Add Field KFc : (kth K).
(** [Coefficients::new] keeps the polynomial and returns its only representation without trailing zeros. *)
Theorem C26_new_trims (l : list K) :
  same_poly (coeffs_new K l) l /\ trimmed (coeffs_new K l) /\ (forall p, same_poly p l -> trimmed p -> p = coeffs_new K l).
Proof.
  split; [apply trim_same|]. split; [apply trim_trimmed|]. intros p S T. apply (trimmed_unique K); [exact T|apply trim_trimmed|].
  intros i. rewrite S. symmetry. apply trim_same.
Qed.
Theorem C26_evaluate (p : list K) x : evaluate K p x = peval p x.
Proof. apply evaluate_ok. Qed.
(** [divide]: quotient by [X - a], one coefficient shorter. *)
Theorem C26_divide (p : list K) a :
  length (divide K p a) = (length p - 1)%nat /\ (forall x, peval p x = (x - a) * peval (divide K p a) x + peval p a).
Proof. split; [rewrite divide_tab; apply tab_length|intros x; apply divide_ok]. Qed.
(** Coefficients add and scale entrywise, the result is trimmed, hence so do values. *)
Theorem C26_add (p q : list K) :
  (forall i, nth i (poly_add K p q) 0 = nth i p 0 + nth i q 0) /\ trimmed (poly_add K p q) /\
  (forall x, peval (poly_add K p q) x = peval p x + peval q x).
Proof.
  assert (N := poly_add_nth K p q). split; [exact N|]. split; [apply trim_trimmed|].
  intros x. apply (peval_nth_op K kadd); [intros; ring|ring|intros; ring|exact N].
Qed.
Theorem C26_scale (p : list K) c :
  (forall i, nth i (poly_scale K p c) 0 = nth i p 0 * c) /\ trimmed (poly_scale K p c) /\
  (forall x, peval (poly_scale K p c) x = peval p x * c).
Proof.
  assert (N := fun i => poly_scale_nth K p c i). split; [exact N|]. split; [apply trim_trimmed|].
  intros x. apply (peval_nth_op K (fun a _ => a * c) p p); [intros; cbv beta; ring|cbv beta; ring|intros; cbv beta; ring|exact N].
Qed.
Theorem C26_sum (l : list (list K)) x : peval (poly_sum K l) x = ksum (map (fun p => peval p x) l).
Proof.
  unfold poly_sum. assert (G : forall l acc, peval (fold_left (poly_add K) l acc) x = peval acc x + ksum (map (fun p => peval p x) l)).
  { clear l. induction l as [|p l IH]; intros acc; cbn [fold_left map]; [change (@ksum K []) with (0 : K); ring|].
    rewrite (ksum_cons K), IH, (proj2 (proj2 (C26_add acc p))). ring. }
  rewrite G. rewrite (peval_nil K). ring.
Qed.
(** Points are subtracted and multiplied entrywise, the shorter vector padded with zeros. *)
Theorem C26_points (p q : list K) :
  length (points_sub K p q) = Nat.max (length p) (length q) /\ length (points_mul K p q) = Nat.max (length p) (length q) /\
  (forall i, nth i (points_sub K p q) 0 = nth i p 0 - nth i q 0) /\ (forall i, nth i (points_mul K p q) 0 = nth i p 0 * nth i q 0).
Proof.
  split; [apply points_sub_length|]. split; [apply points_mul_length|]. split; intros i; [apply points_sub_nth|apply points_mul_nth].
Qed.
(** Subtraction of coefficients is the difference exactly when the left operand is longer; otherwise
    the code returns the negated difference. *)
Theorem C26_subtraction (p q : list K) x :
  peval (poly_sub K p q) x = if Nat.ltb (length q) (length p) then peval p x - peval q x else peval q x - peval p x.
Proof.
  pose proof (poly_sub_nth K p q) as N. unfold longer in N. destruct (Nat.ltb (length q) (length p)).
  - apply (peval_nth_op K ksub); [intros; ring|ring|intros; ring|exact N].
  - apply (peval_nth_op K ksub q p); [intros; ring|ring|intros; ring|exact N].
Qed.
(** [commit] over the powers of [r]: the value at [r], shifted by the unused powers. *)
Theorem C26_commit (p : list K) r n :
  poly_commit K p (powers K 1 r n) = if Nat.leb (length p) n then Some (kpow r (n - length p) * peval p r) else None.
Proof.
  unfold poly_commit. rewrite powers_tab, tab_length. destruct (Nat.leb_spec (length p) n) as [L|L]; [|reflexivity].
  apply f_equal. replace n with (n - length p + length p)%nat at 2 by lia. rewrite skipn_tab.
  unfold dot. assert (G : forall (p : list K) acc j, fold_left (fun acc '(a, b) => acc + a * b) (combine p (tab K (fun i => 1 * kpow r (j + i)) (length p))) acc
      = acc + kpow r j * peval p r).
  { clear p L. induction p as [|c p IH]; intros acc j; [rewrite peval_nil; cbn [length tab seq map combine fold_left]; ring|].
    cbn [length]. rewrite tab_cons. cbn [combine fold_left].
    rewrite (tab_ext K _ (fun i => 1 * kpow r (S j + i)) (length p)) by (intros i _; f_equal; f_equal; lia).
    rewrite IH, peval_cons, Nat.add_0_r. cbn [kpow]. ring. }
  rewrite G. ring.
Qed.
Theorem C26_setup (r : K) k : length (snd (poly_setup K r k)) = (2 ^ k)%nat /\
  (forall i, (i < 2 ^ k)%nat -> nth i (snd (poly_setup K r k)) 0 = kpow r i) /\ fst (poly_setup K r k) = r.
Proof.
  unfold poly_setup. cbn [snd fst]. rewrite powers_tab. split; [apply tab_length|]. split; [|reflexivity].
  intros i Hi. rewrite nth_tab by exact Hi. ring.
Qed.
(** [degree] of a polynomial made by [new]: the index of the last nonzero coefficient. *)
Theorem C26_degree (l : list K) : exists d, degree K (coeffs_new K l) = Some d /\
  (forall i, (d < i)%nat -> nth i l 0 = 0) /\ ((exists i, nth i l 0 <> 0) -> nth d l 0 <> 0).
Proof.
  pose proof (trim_same K l) as SP. pose proof (trim_trimmed K l) as T. unfold coeffs_new. revert SP T. generalize (format_degree K l) as p. intros p SP T.
  unfold degree. destruct (poly_is_zero K p) eqn:Z.
  - exists 0%nat. split; [reflexivity|].
    assert (A : forall i, nth i l 0 = 0).
    { intros i. rewrite <- SP. unfold poly_is_zero in Z. rewrite forallb_forall in Z.
      destruct (Nat.lt_ge_cases i (length p)) as [L|L]; [|apply nth_overflow, L].
      pose proof (Z _ (nth_In p 0 L)) as E. unfold kis0 in E. apply keqb_eq in E. exact E. }
    split; [intros i _; apply A|]. intros [i Hi]. destruct (Hi (A i)).
  - destruct T as [T|T]; [rewrite T in Z; discriminate|].
    assert (NN : p <> []) by (intros E; rewrite E in Z; discriminate).
    destruct (exists_last NN) as (p' & x & E). rewrite E in T. rewrite last_last in T.
    replace (rev p) with (x :: rev p') by (rewrite E, rev_app_distr; reflexivity). cbv beta iota. unfold kis0. destruct (keqb_spec K x 0) as [X|_]; [destruct (T X)|].
    exists (length p - 1)%nat. split; [reflexivity|].
    assert (L : length p = S (length p')) by (rewrite E, app_length; cbn; lia). split.
    + intros i Hi. rewrite <- SP. apply nth_overflow. lia.
    + intros _. rewrite <- SP, L, E. rewrite app_nth2 by lia. replace (S (length p') - 1 - length p')%nat with 0%nat by lia. exact T.
Qed.
(** [blind] adds a multiple of [X^n - 1], so values on the [n]-th roots of unity are kept; it needs at
    least as many coefficients as blinding scalars. *)
Lemma sub_at_ok (s : K) : forall p i, (i < length p)%nat -> exists q, sub_at K p i s = Some q /\ length q = length p /\
  (forall x, peval q x = peval p x - s * kpow x i).
Proof.
  induction p as [|c p IH]; intros i L; [cbn in L; lia|]. destruct i as [|i]; cbn [sub_at].
  - exists (c - s :: p). split; [reflexivity|]. split; [reflexivity|]. intros x. rewrite !peval_cons. cbn. ring.
  - destruct (IH i) as (q & E & Lq & V); [cbn in L; lia|]. rewrite E. exists (c :: q). split; [reflexivity|].
    split; [cbn; rewrite Lq; reflexivity|]. intros x. rewrite !peval_cons, V. cbn. ring.
Qed.
Lemma blind_from_ok n : forall (ss p : list K) i, length p = (n + i)%nat -> (i + length ss <= n + i)%nat -> (0 < n)%nat ->
  exists q, blind_from K i ss p = Some q /\ length q = (length p + length ss)%nat /\
  (forall x, peval q x = peval p x + (kpow x n - 1) * (kpow x i * peval ss x)).
Proof.
  induction ss as [|s ss IH]; intros p i L H N.
  - exists p. split; [reflexivity|]. split; [cbn; lia|]. intros x. rewrite peval_nil. ring.
  - cbn [length] in H. destruct (sub_at_ok s p i) as (p' & E & Lp & V); [lia|]. cbn [blind_from]. rewrite E.
    destruct (IH (p' ++ [s]) (S i)) as (q & Eq & Lq & Vq); [rewrite app_length; cbn; lia|lia|lia|].
    exists q. split; [exact Eq|]. split; [rewrite Lq, app_length; cbn; lia|].
    intros x. rewrite Vq, peval_app, V, Lp, L, !peval_cons, peval_nil, kpow_add. cbn [kpow]. ring.
Qed.
Theorem C26_blind (p ss : list K) : (length ss <= length p)%nat -> p <> [] ->
  exists q, blind K ss p = Some q /\ length q = (length p + length ss)%nat /\
  (forall x, peval q x = peval p x + (kpow x (length p) - 1) * peval ss x).
Proof.
  intros L N. destruct (blind_from_ok (length p) ss p 0) as (q & E & Lq & V); [lia|lia|destruct p; [destruct N; reflexivity|cbn; lia]|].
  exists q. split; [exact E|]. split; [exact Lq|]. intros x. rewrite V. cbn. ring.
Qed.
End C26.
Theorem C26_subtraction_refuted : exists p q x, peval (poly_sub FrFld p q) x <> peval p x - peval q x.
Proof.
  exists [], [1], 1. rewrite C26_subtraction. cbn [length Nat.ltb Nat.leb].
  rewrite peval_nil, peval_cons, peval_nil.
  apply keqb_neq. vm_compute. reflexivity.
Qed.
Example C26_case :
  coeffs_new F13 [f13 1; f13 2; f13 0; f13 13] = [f13 1; f13 2] /\ evaluate F13 [f13 1; f13 2] (f13 5) = f13 11 /\
  divide F13 [f13 12; f13 0; f13 1] (f13 1) = [f13 1; f13 1] /\ degree F13 [f13 1; f13 2] = Some 1%nat /\
  poly_commit F13 [f13 1; f13 2] (powers F13 1 (f13 5) 3) = Some (f13 3) /\
  blind F13 [f13 3; f13 4] [f13 1; f13 2] = Some [f13 11; f13 11; f13 3; f13 4].
Proof.
  assert (E : forall l r : list F13, map (zp_val 13) l = map (zp_val 13) r -> l = r).
  { induction l as [|x l IH]; intros [|y r]; cbn; intros H; try discriminate; [reflexivity|].
    injection H as H1 H2. rewrite (zp_eq _ _ _ H1), (IH _ H2). reflexivity. }
  split; [apply E; vm_compute; reflexivity|]. split; [apply zp_eq; vm_compute; reflexivity|].
  split; [apply E; vm_compute; reflexivity|]. split; [vm_compute; reflexivity|].
  split.
  - rewrite C26_commit. cbn [length Nat.leb]. apply f_equal. rewrite <- C26_evaluate. apply zp_eq. vm_compute. reflexivity.
  - cbn [blind blind_from sub_at app]. apply f_equal, E. vm_compute. reflexivity.
Qed.

(** ** C27 *)
(** What the three constants of a field must satisfy for the transforms to work: [root] is a primitive
    [2^s]-th root of unity. *)
Definition fft_field (K : Fld) (s : nat) (root gen : K) : Prop := (1 + 1 : K) <> 0 /\ fft_consts K s root gen.
(** The constants of the scalar field (bn254/src/fr.rs: [ROOT_OF_UNITY], [MULTIPLICATIVE_GENERATOR], [S] = 28). *)
Definition fr_two_adicity : nat := 28.
Definition fr_root : FrFld := fr_mk 0x03ddb9f5166d18b798865ea93dd31f743215cf6dd39329c8d34f1ed960c37c9c.
Definition fr_gen : FrFld := fr_mk 7.
Theorem C27_constants : fr_S = Z.of_nat fr_two_adicity /\
  represents R_MOD fr_root_of_unity (fr_val fr_root) /\ represents R_MOD fr_generator (fr_val fr_gen).
Proof.
  split; [reflexivity|]. unfold fr_root_of_unity, fr_generator, fr_val, fr_root, fr_gen, fr_mk. rewrite !lf_val_mk.
  split.
  - apply (C04_to_mont_form fr R_MOD (L4 0xd34f1ed960c37c9c 0x3215cf6dd39329c8 0x98865ea93dd31f74 0x03ddb9f5166d18b7) (or_introl (conj eq_refl eq_refl))).
    apply limbs_ok_wf. unfold wf, word. rewrite Bval. cbn. lia.
  - apply (C04_to_mont_form fr R_MOD (L4 7 0 0 0) (or_introl (conj eq_refl eq_refl))).
    apply limbs_ok_wf. unfold wf, word. rewrite Bval. cbn. lia.
Qed.
Theorem C27_scalar_field : fft_field FrFld fr_two_adicity fr_root fr_gen.
Proof.
  split; [apply keqb_neq; vm_compute; reflexivity|]. split; [unfold fr_two_adicity; lia|]. split; [unfold fr_two_adicity; lia|].
  split; [|apply keqb_neq; vm_compute; reflexivity].
  rewrite <- squares_pow. apply keqb_eq. vm_compute. reflexivity.
Qed.

Section C27.
Variable K : Fld.
Add Field KFd : (kth K).
Variables (s : nat) (root gen : K).
Hypothesis HF : fft_field K s root gen.
(** [Fft::new(k)] works exactly for [1 <= k <= S]. *)
Theorem C27_new k : (exists f, fft_new K s root gen k = Some f /\ fft_n f = (2 ^ k)%nat) <-> (1 <= k <= s)%nat.
Proof.
  destruct HF as [two HC]. split.
  - intros (f & E & _). unfold fft_new in E. destruct (Nat.eqb_spec k 0); [discriminate|]. destruct (Nat.ltb_spec s k); [discriminate|]. lia.
  - intros Hk. rewrite (fft_new_ok K two s root gen HC k Hk). eexists. split; [reflexivity|]. reflexivity.
Qed.
(** The [n] points of the domain: [w^0, ..., w^(n-1)] for a [w] with [w^n = 1], all distinct. *)
Theorem C27_domain k : (1 <= k <= s)%nat -> let w := kpow root (2 ^ (s - k)) in let n := (2 ^ k)%nat in
  kpow w n = 1 /\ (forall i j, (i < n)%nat -> (j < n)%nat -> kpow w i = kpow w j -> i = j).
Proof.
  destruct HF as [two HC]. intros Hk w n. split; [exact (wroot_n K s root gen HC k Hk)|].
  assert (G : forall i j, (i < j)%nat -> (j < n)%nat -> kpow w i <> kpow w j).
  { intros i j Hij Hj E. pose proof (wroot_half K s root gen HC k Hk) as H.
    apply (primitive K two (k - 1) w (j - i) H); [unfold n in Hj; replace (S (k - 1)) with k by lia; lia|].
    replace j with (i + (j - i))%nat in E by lia. rewrite kpow_add in E.
    assert (N : kpow w i <> 0).
    { intros E0. pose proof (wroot_n K s root gen HC k Hk) as W. change (kpow w n = 1) in W.
      replace n with (i + (n - i))%nat in W by lia. rewrite kpow_add, E0 in W. apply (k1_neq0 K). rewrite <- W. ring. }
    apply (kmul_cancel_l K (kpow w i)); [exact N|]. rewrite <- E. ring. }
  intros i j Hi Hj E. destruct (Nat.lt_trichotomy i j) as [L|[L|L]]; [destruct (G i j L Hj E)|exact L|destruct (G j i L Hi (eq_sym E))].
Qed.
Section Sized.
Variables (k : nat) (f : fft K).
Hypothesis Hk : (1 <= k <= s)%nat.
Hypothesis Hf : fft_new K s root gen k = Some f.
Let w := kpow root (2 ^ (s - k)).
Let n := (2 ^ k)%nat.
Lemma nth_error_tab_n (g : nat -> K) i : (i < n)%nat -> nth_error (tab K g n) i = Some (g i).
Proof. apply nth_error_tab. Qed.
(** [dft]: entry [i] is the value at [w^i]. *)
Theorem C27_dft p : (length p <= n)%nat -> exists v, dft K f p = Some v /\ length v = n /\
  (forall i, (i < n)%nat -> nth_error v i = Some (peval p (kpow w i))).
Proof.
  destruct HF as [two HC]. intros L. eexists. split; [apply (dft_ok K two s root gen HC k Hk f Hf)|]. split; [apply tab_length|].
  intros i Hi. rewrite nth_error_tab by exact Hi. apply f_equal. fold n w. rewrite resize_tab, peval_tab. symmetry. apply (peval_pad K p), L.
Qed.
(** [idft]: the one polynomial of degree below [n] with the given values. *)
Theorem C27_idft v : exists p, idft K f v = Some p /\ trimmed p /\ (length p <= n)%nat /\
  (forall i, (i < n)%nat -> peval p (kpow w i) = nth i v 0) /\
  (forall q, (length q <= n)%nat -> (forall i, (i < n)%nat -> peval q (kpow w i) = nth i v 0) -> same_poly q p).
Proof.
  destruct HF as [two HC]. destruct (dft_idft_ok K two s root gen HC k Hk f Hf v) as (p & E & T & L & V & _).
  exists p. split; [exact E|]. split; [exact T|]. split; [exact L|]. split; [exact V|].
  intros q Lq Vq. apply (domain_unique K two s root gen HC k Hk); [exact Lq|exact L|].
  intros i Hi. transitivity (nth i v 0); [exact (Vq i Hi)|symmetry; exact (V i Hi)].
Qed.
Theorem C27_round_trips : (forall p, (length p <= n)%nat -> exists v, dft K f p = Some v /\ idft K f v = Some (coeffs_new K p)) /\
  (forall v, length v = n -> exists p, idft K f v = Some p /\ dft K f p = Some v).
Proof.
  destruct HF as [two HC]. split.
  - intros p L. exact (idft_dft_ok K two s root gen HC k Hk f Hf p L).
  - intros v L. destruct (dft_idft_ok K two s root gen HC k Hk f Hf v) as (p & E & T & _ & _ & D).
    exists p. split; [exact E|]. rewrite D. apply f_equal. unfold resize. fold n. rewrite <- L, firstn_all, Nat.sub_diag. apply app_nil_r.
Qed.
(** The coset versions work on [gen * w^i]. *)
Theorem C27_coset_dft p : (length p <= n)%nat -> exists v, coset_dft K f p = Some v /\ length v = n /\
  (forall i, (i < n)%nat -> nth_error v i = Some (peval p (gen * kpow w i))).
Proof.
  destruct HF as [two HC]. intros L. eexists. split; [apply (coset_dft_ok K two s root gen HC k Hk f Hf p L)|]. split; [apply tab_length|].
  intros i Hi. apply nth_error_tab, Hi.
Qed.
Theorem C27_coset_idft v : exists p, coset_idft K f v = Some p /\ trimmed p /\ (length p <= n)%nat /\
  (forall i, (i < n)%nat -> peval p (gen * kpow w i) = nth i v 0) /\
  (forall q, (length q <= n)%nat -> (forall i, (i < n)%nat -> peval q (gen * kpow w i) = nth i v 0) -> same_poly q p).
Proof.
  destruct HF as [two HC].
  assert (EX : exists p, (length p <= n)%nat /\ (forall i, (i < n)%nat -> peval p (gen * kpow w i) = nth i v 0)).
  { destruct (dft_idft_ok K two s root gen HC k Hk f Hf v) as (q & _ & _ & L & V & _).
    exists (zip_scale K q (powers K 1 (kinv gen) n)). split; [rewrite zip_scale_length; exact L|].
    intros i Hi. transitivity (peval q (kpow w i)); [|exact (V i Hi)].
    rewrite (peval_pad K (zip_scale K q _) _ n) by (rewrite zip_scale_length; exact L). rewrite (peval_pad K q _ n L).
    apply sumn_ext. intros j _. rewrite zip_scale_nth by exact L. rewrite kpow_mul_l.
    assert (E1 : kpow (kinv gen) j * kpow gen j = 1).
    { rewrite <- kpow_mul_l, (kinv_l K gen (proj2 (proj2 (proj2 HC)))). apply kpow_1_l. }
    transitivity (nth j q 0 * (kpow (kinv gen) j * kpow gen j) * kpow (kpow w i) j); [ring|]. rewrite E1. ring. }
  assert (U : forall q, (length q <= n)%nat -> (forall i, (i < n)%nat -> peval q (gen * kpow w i) = nth i v 0) -> coset_idft K f v = Some (format_degree K q)).
  { intros q Lq Vq. apply (coset_idft_ok K two s root gen HC k Hk f Hf q v Lq). intros i Hi. symmetry. exact (Vq i Hi). }
  destruct EX as (p & L & V). exists (format_degree K p). split; [apply U; assumption|]. split; [apply trim_trimmed|].
  split; [eapply Nat.le_trans; [apply trim_length|exact L]|]. split.
  - intros i Hi. rewrite (peval_same K _ _ _ (trim_same K p)). exact (V i Hi).
  - intros q Lq Vq. pose proof (U q Lq Vq) as E. rewrite (U p L V) in E. injection E as E. intros i. rewrite E. symmetry. apply trim_same.
Qed.
(** The vanishing polynomial of the domain, and division by it on the coset. *)
Theorem C27_vanishing : (forall tau, fft_z K f tau = kpow tau n - 1) /\ (forall i, fft_z K f (kpow w i) = 0) /\
  (forall v, kpow gen n <> 1 -> exists q, divide_by_z_on_coset K f gen v = Some q /\ length q = length v /\
    (forall i j, nth i q 0 * fft_z K f (gen * kpow w j) = nth i v 0)).
Proof.
  destruct HF as [two HC].
  assert (EN : fft_n f = n) by (rewrite (ff_eq K two s root gen HC k Hk f Hf); reflexivity).
  assert (WN : forall i, kpow (kpow w i) n = 1).
  { intros i. rewrite <- kpow_mul, Nat.mul_comm, kpow_mul. pose proof (wroot_n K s root gen HC k Hk) as W. change (kpow w n = 1) in W. rewrite W. apply kpow_1_l. }
  unfold fft_z, divide_by_z_on_coset, z_on_coset. rewrite EN. split; [reflexivity|]. split; [intros i; rewrite WN; ring|].
  intros v N. unfold kinvert, kis0. destruct (keqb_spec K (kpow gen n - 1) 0) as [E|E].
  - destruct N. transitivity (kpow gen n - 1 + 1); [ring|rewrite E; ring].
  - eexists. split; [reflexivity|]. split; [apply map_length|]. intros i j. rewrite nth_map0 by ring.
    rewrite kpow_mul_l, WN. transitivity (nth i v 0 * (kinv (kpow gen n - 1) * (kpow gen n - 1))); [ring|]. rewrite (kinv_l K _ E). ring.
Qed.
End Sized.
End C27.
(** For the scalar field the division never fails. *)
Theorem C27_coset_disjoint k : (k <= fr_two_adicity)%nat -> kpow fr_gen (2 ^ k) <> 1.
Proof.
  intros Hk E. assert (H : kpow fr_gen (2 ^ fr_two_adicity) = 1).
  { replace fr_two_adicity with (k + (fr_two_adicity - k))%nat by lia. rewrite Nat.pow_add_r, kpow_mul, E. apply kpow_1_l. }
  revert H. rewrite <- squares_pow. apply keqb_neq. vm_compute. reflexivity.
Qed.
(** Size four over the scalar field, coefficients 1, 2, 0, 5. *)
Example C27_case : exists f v, fft_new FrFld fr_two_adicity fr_root fr_gen 2 = Some f /\
  dft FrFld f [fr_mk 1; fr_mk 2; fr_mk 0; fr_mk 5] = Some v /\ nth_error v 0 = Some (fr_mk 8) /\ nth_error v 2 = Some (fr_mk (-6)) /\
  idft FrFld f v = Some [fr_mk 1; fr_mk 2; fr_mk 0; fr_mk 5].
Proof.
  destruct (proj2 (C27_new FrFld fr_two_adicity fr_root fr_gen C27_scalar_field 2)) as (f & Hf & _); [unfold fr_two_adicity; lia|].
  set (p := [fr_mk 1; fr_mk 2; fr_mk 0; fr_mk 5]).
  assert (Hk : (1 <= 2 <= fr_two_adicity)%nat) by (unfold fr_two_adicity; lia).
  destruct (proj1 (C27_round_trips FrFld fr_two_adicity fr_root fr_gen C27_scalar_field 2 f Hk Hf) p) as (v & D & I); [cbn; lia|].
  destruct (C27_dft FrFld fr_two_adicity fr_root fr_gen C27_scalar_field 2 f Hk Hf p) as (v' & D' & _ & V); [cbn; lia|].
  rewrite D in D'. apply (f_equal (fun o => match o with Some x => x | None => v end)) in D'. subst v'.
  exists f, v. split; [exact Hf|]. split; [exact D|]. split.
  - rewrite (V 0%nat) by (cbn; lia). apply f_equal. cbn [kpow]. rewrite <- C26_evaluate. apply keqb_eq. vm_compute. reflexivity.
  - split.
    + rewrite (V 2%nat) by (cbn; lia). apply f_equal. rewrite <- squares_pow. rewrite <- C26_evaluate. apply keqb_eq. vm_compute. reflexivity.
    + rewrite I. apply f_equal. apply (trim_id FrFld). right. apply keqb_neq. vm_compute. reflexivity.
Qed.
