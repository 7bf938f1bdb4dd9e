(** Interpolation, the coset transforms and exact division by X^n - 1. *)
From Coq Require Import ZArith List Bool Lia Field.
From Verif Require Import Algebra PolyModel PolySpec PolyProofs FftProofs.
Import ListNotations.
Local Open Scope fld_scope.

Section Inv.
Variable F : Fld.
Add Field ifield : (kth F).
Implicit Types (f g : nat -> F).
Hypothesis two : (1 + 1 : F) <> 0.
Lemma one_mone : (1 : F) <> - (1). Proof. intros E. apply two. rewrite E at 1. ring. Qed.

Lemma kofnat_add a b : kofnat (a + b) = (kofnat a + kofnat b : F).
Proof. induction a as [|a IH]; cbn; [ring|]. rewrite IH. ring. Qed.
Lemma kofnat_pow2 k : (kofnat (2 ^ k) : F) <> 0.
Proof.
  induction k as [|k IH]; [cbn; intros E; apply (k1_neq0 F); rewrite <- E; ring|].
  rewrite pow2_S, kofnat_add. intros E. apply (kmul_neq0 F _ _ two IH). rewrite <- E. ring.
Qed.
Lemma sumn_const (c : F) n : sumn (fun _ => c) n = kofnat n * c.
Proof. induction n as [|n IH]; cbn; [ring|]. rewrite IH. ring. Qed.
Lemma geom (x : F) n : sumn (fun i => kpow x i) n * (x - 1) = kpow x n - 1.
Proof. induction n as [|n IH]; cbn; [ring|]. transitivity (sumn (fun i => kpow x i) n * (x - 1) + kpow x n * (x - 1)); [ring|]. rewrite IH. ring. Qed.
Lemma mone_odd d : kpow (- (1) : F) (2 * d + 1) = - (1).
Proof.
  rewrite kpow_add, kpow_mul. replace (kpow (- (1) : F) 2) with (1 : F) by (cbn; ring). rewrite kpow_1_l. cbn. ring.
Qed.
Lemma primitive k : forall (w : F) d, kpow w (2 ^ k) = - (1) -> (0 < d < 2 ^ S k)%nat -> kpow w d <> 1.
Proof.
  induction k as [|k IH]; intros w d Hw Hd E.
  - change (2 ^ 0)%nat with 1%nat in Hw. assert (d = 1%nat) by (cbn in Hd; lia). subst d. apply one_mone. congruence.
  - destruct (Nat.Even_or_Odd d) as [[e ->]|[e ->]].
    + rewrite kpow_mul in E. apply (IH (kpow w 2) e); [|cbn in Hd |- *; lia|exact E].
      rewrite <- kpow_mul. exact Hw.
    + assert (X : kpow (kpow w (2 * e + 1)) (2 ^ S k) = 1) by (rewrite E; apply kpow_1_l).
      rewrite <- kpow_mul, Nat.mul_comm, kpow_mul, Hw, mone_odd in X. apply one_mone. symmetry. exact X.
Qed.
Lemma root_n k (w : F) : kpow w (2 ^ k) = - (1) -> kpow w (2 ^ S k) = 1.
Proof. intros H. rewrite pow2_S, kpow_add, H. ring. Qed.
Lemma ortho k (w : F) d : kpow w (2 ^ k) = - (1) -> (d < 2 ^ S k)%nat ->
  sumn (fun i => kpow (kpow w d) i) (2 ^ S k) = if Nat.eqb d 0 then kofnat (2 ^ S k) else 0.
Proof.
  intros Hw Hd. destruct (Nat.eqb_spec d 0) as [->|N].
  - rewrite (sumn_ext F _ (fun _ => 1)) by (intros i _; apply kpow_1_l). rewrite sumn_const. ring.
  - assert (N1 : kpow w d - 1 <> 0). { intros E. apply (proj1 (ksub_eq0 F _ _)) in E. revert E. apply (primitive k); [exact Hw|lia]. }
    pose proof (geom (kpow w d) (2 ^ S k)) as G. rewrite <- kpow_mul, Nat.mul_comm, kpow_mul, (root_n k w Hw), kpow_1_l in G.
    replace (1 - 1 : F) with (0 : F) in G by ring. apply kmul_eq0 in G as [G|G]; [exact G|contradiction].
Qed.
Lemma inv_pow (u u' : F) a b : u * u' = 1 -> kpow u a * kpow u' b = if Nat.leb b a then kpow u (a - b) else kpow u' (b - a).
Proof.
  intros H. assert (P : forall n, kpow u n * kpow u' n = 1) by (intros n; rewrite <- kpow_mul_l, H; apply kpow_1_l).
  destruct (Nat.leb_spec b a) as [L|L].
  - replace a with ((a - b) + b)%nat at 1 by lia. rewrite kpow_add. transitivity (kpow u (a - b) * (kpow u b * kpow u' b)); [ring|]. rewrite P. ring.
  - replace b with ((b - a) + a)%nat at 1 by lia. rewrite kpow_add. transitivity (kpow u' (b - a) * (kpow u a * kpow u' a)); [ring|]. rewrite P. ring.
Qed.
Lemma inv_root k (u u' : F) : u * u' = 1 -> kpow u (2 ^ k) = - (1) -> kpow u' (2 ^ k) = - (1).
Proof.
  intros H Hu. assert (E : kpow u (2 ^ k) * kpow u' (2 ^ k) = 1) by (rewrite <- kpow_mul_l, H; apply kpow_1_l).
  rewrite Hu in E. transitivity (- (- (1) * kpow u' (2 ^ k))); [ring|]. rewrite E. reflexivity.
Qed.
(** Transforming with [u'] and then with its inverse [u] multiplies by [n]. *)
Lemma inversion k (u u' : F) (v : nat -> F) j : u * u' = 1 -> kpow u (2 ^ k) = - (1) -> (j < 2 ^ S k)%nat ->
  pv F (fun i => pv F v (2 ^ S k) (kpow u' i)) (2 ^ S k) (kpow u j) = kofnat (2 ^ S k) * v j.
Proof.
  intros H Hu Hj. pose proof (inv_root k u u' H Hu) as Hu'. unfold pv.
  rewrite (sumn_ext F _ (fun i => sumn (fun l => v l * kpow (kpow u j * kpow u' l) i) (2 ^ S k))).
  2:{ intros i _. rewrite (sumn_ext F (fun l => v l * kpow (kpow u j * kpow u' l) i) (fun l => kpow (kpow u j) i * (v l * kpow (kpow u' i) l))).
      - rewrite sumn_scale. ring.
      - intros l _. rewrite kpow_mul_l, <- !kpow_mul, (Nat.mul_comm l i). ring. }
  rewrite sumn_swap.
  rewrite (sumn_ext F _ (fun l => if Nat.eqb l j then kofnat (2 ^ S k) * v l else 0)).
  - rewrite (sumn_single F _ _ j Hj); [rewrite Nat.eqb_refl; reflexivity|]. intros i _ N. destruct (Nat.eqb_spec i j); [congruence|reflexivity].
  - intros l Hl. rewrite sumn_scale. rewrite (inv_pow u u' j l H). destruct (Nat.leb_spec l j) as [L|L].
    + rewrite (ortho k u) by (assumption || lia). destruct (Nat.eqb_spec (j - l) 0), (Nat.eqb_spec l j); try lia; ring.
    + rewrite (ortho k u') by (assumption || lia). destruct (Nat.eqb_spec (l - j) 0), (Nat.eqb_spec l j); try lia; ring.
Qed.

(** ** The structure built by [Fft::new] *)
Lemma squares_pow n : forall x : F, squares F n x = kpow x (2 ^ n).
Proof.
  induction n as [|n IH]; intros x; [cbn; ring|]. cbn [squares]. rewrite IH. unfold ksq.
  rewrite kpow_mul_l, <- kpow_add, <- pow2_S. reflexivity.
Qed.
Lemma resize_tab n (l : list F) : resize F n l = tab F (fun i => nth i l 0) n.
Proof.
  apply (nth_ext _ _ 0 0).
  - rewrite tab_length. unfold resize. rewrite app_length, firstn_length, repeat_length. lia.
  - intros i Hi. unfold resize in *. rewrite app_length, firstn_length, repeat_length in Hi.
    assert (Hn : (i < n)%nat) by lia. rewrite nth_tab by exact Hn.
    destruct (Nat.lt_ge_cases i (length l)) as [L|L].
    + rewrite app_nth1 by (rewrite firstn_length; lia). clear -Hn. revert n Hn l. induction i as [|i IH]; intros [|n] Hn [|x l]; cbn; try lia; try reflexivity. apply IH. lia.
    + rewrite app_nth2 by (rewrite firstn_length; lia). rewrite nth_repeat, nth_overflow by exact L. reflexivity.
Qed.
Variables (s : nat) (root gen : F).
(** What the constants must satisfy. *)
Definition fft_consts : Prop := (s <= 64)%nat /\ (s <> 0)%nat /\ kpow root (2 ^ (s - 1)) = - (1) /\ gen <> 0.
Hypothesis HC : fft_consts.
Variable k : nat.
Hypothesis Hk : (1 <= k <= s)%nat.
Definition wroot : F := kpow root (2 ^ (s - k)).
Let n := (2 ^ k)%nat.
Let k' := (k - 1)%nat.
Lemma kS : k = S k'. Proof. unfold k'. lia. Qed.
Lemma n_eq : n = (2 ^ S k')%nat. Proof. unfold n. rewrite kS. reflexivity. Qed.
Lemma wroot_half : kpow wroot (2 ^ k') = - (1).
Proof.
  destruct HC as (_ & S0 & HR & _). unfold wroot. rewrite <- kpow_mul, <- Nat.pow_add_r. replace (s - k + k')%nat with (s - 1)%nat by (unfold k'; lia). exact HR.
Qed.
Lemma wroot_neq0 : wroot <> 0.
Proof.
  intros E. pose proof wroot_half as H. rewrite E in H. pose proof (pow2_pos k'). destruct (2 ^ k')%nat; [lia|].
  cbn in H. apply (k1_neq0 F). transitivity (- - (1) : F); [ring|]. rewrite <- H. ring.
Qed.
Lemma winv : wroot * kinv wroot = 1. Proof. rewrite <- (kinv_l F wroot wroot_neq0). ring. Qed.
Lemma fft_new_ok : fft_new F s root gen k =
  Some (mkFft F n (powers F 1 wroot (2 ^ k')) (powers F 1 (kinv wroot) (2 ^ k')) (powers F 1 gen n) (powers F 1 (kinv gen) n) (kinv (kofnat n)) (rev_pairs k)).
Proof.
  unfold fft_new. destruct (Nat.eqb_spec k 0); [lia|]. destruct (Nat.ltb_spec s k); [lia|]. rewrite squares_pow. fold wroot.
  unfold kinvert, kis0. fold n. fold k'.
  destruct (keqb_spec F wroot 0) as [E|_]; [destruct (wroot_neq0 E)|].
  destruct (keqb_spec F gen 0) as [E|_]; [destruct (proj2 (proj2 (proj2 HC)) E)|].
  destruct (keqb_spec F (kofnat n) 0) as [E|_]; [destruct (kofnat_pow2 k E)|]. reflexivity.
Qed.
Variable ff : fft F.
Hypothesis Hff : fft_new F s root gen k = Some ff.
Lemma ff_eq : ff = mkFft F n (powers F 1 wroot (2 ^ k')) (powers F 1 (kinv wroot) (2 ^ k')) (powers F 1 gen n) (powers F 1 (kinv gen) n) (kinv (kofnat n)) (rev_pairs k).
Proof. rewrite fft_new_ok in Hff. injection Hff as <-. reflexivity. Qed.
Lemma transform_ok (u : F) l : kpow u (2 ^ k') = - (1) ->
  transform F ff (powers F 1 u (2 ^ k')) l = Some (tab F (fun i => pv F (fun j => nth j l 0) n (kpow u i)) n).
Proof.
  intros Hu. unfold transform, prepare_fft. rewrite ff_eq. cbn [fft_rev fft_n]. rewrite resize_tab, rev_pairs_eq by (destruct HC; lia).
  rewrite (swaps_ok F (bv k) n) by (intros i Hi; split; [apply bv_lt, Hi|apply bv_invol, Hi]).
  rewrite n_eq. rewrite kS. apply (classic_ok F _ k' (2 ^ S k')%nat 1 (fun j => nth j l 0) u).
  - apply Nat.lt_trans with (S k'); [lia|]. apply Nat.pow_gt_lin_r. lia.
  - exact Hu.
  - intros i Hi. rewrite Nat.mul_1_r, powers_tab, nth_error_tab by exact Hi. apply f_equal. ring.
Qed.
(** ** Main facts *)
Lemma dft_ok l : dft F ff l = Some (tab F (fun i => peval (resize F n l) (kpow wroot i)) n).
Proof.
  unfold dft. rewrite ff_eq at 2. cbn [fft_tw]. rewrite (transform_ok wroot l wroot_half). apply f_equal, tab_ext. intros i _.
  rewrite resize_tab, peval_tab. reflexivity.
Qed.
Definition interp (v : list F) : list F := tab F (fun i => pv F (fun j => nth j v 0) n (kpow (kinv wroot) i) * kinv (kofnat n)) n.
Lemma idft_ok v : idft F ff v = Some (format_degree F (interp v)).
Proof.
  unfold idft. assert (E1 : fft_itw ff = powers F 1 (kinv wroot) (2 ^ k')) by (rewrite ff_eq; reflexivity).
  assert (E2 : fft_ninv ff = kinv (kofnat n)) by (rewrite ff_eq; reflexivity). rewrite E1, E2.
  rewrite (transform_ok (kinv wroot) v) by (apply (inv_root k' wroot); [exact winv|exact wroot_half]).
  rewrite tab_map. reflexivity.
Qed.
Lemma interp_eval v j : (j < n)%nat -> peval (interp v) (kpow wroot j) = nth j v 0.
Proof.
  intros Hj. unfold interp. rewrite peval_tab.
  rewrite (sumn_ext F _ (fun i => kinv (kofnat n) * (pv F (fun j => nth j v 0) n (kpow (kinv wroot) i) * kpow (kpow wroot j) i))) by (intros; ring).
  rewrite sumn_scale. change (sumn ?f n) with (pv F (fun i => pv F (fun j => nth j v 0) n (kpow (kinv wroot) i)) n (kpow wroot j)).
  rewrite n_eq in *. rewrite (inversion k' wroot (kinv wroot)) by (exact winv || exact wroot_half || assumption).
  transitivity (kinv (kofnat (2 ^ S k')) * kofnat (2 ^ S k') * nth j v 0); [ring|]. rewrite kinv_l by apply kofnat_pow2. ring.
Qed.
Lemma interp_dft (a : nat -> F) : interp (tab F (fun i => pv F a n (kpow wroot i)) n) = tab F a n.
Proof.
  unfold interp. apply tab_ext. intros j Hj.
  assert (E : pv F (fun i => nth i (tab F (fun i => pv F a n (kpow wroot i)) n) 0) n (kpow (kinv wroot) j) =
    pv F (fun i => pv F a n (kpow wroot i)) n (kpow (kinv wroot) j)).
  { apply sumn_ext. intros i Hi. rewrite nth_tab by exact Hi. reflexivity. }
  rewrite E. rewrite n_eq in *. rewrite (inversion k' (kinv wroot) wroot).
  - transitivity (kinv (kofnat (2 ^ S k')) * kofnat (2 ^ S k') * a j); [ring|]. rewrite kinv_l by apply kofnat_pow2. ring.
  - rewrite <- winv. ring.
  - apply (inv_root k' wroot); [exact winv|exact wroot_half].
  - exact Hj.
Qed.
(** A polynomial with at most [n] coefficients is determined by its values on the domain. *)
Lemma domain_unique (p q : list F) : (length p <= n)%nat -> (length q <= n)%nat ->
  (forall i, (i < n)%nat -> peval p (kpow wroot i) = peval q (kpow wroot i)) -> same_poly p q.
Proof.
  intros LP LQ H. assert (E : tab F (fun i => nth i p 0) n = tab F (fun i => nth i q 0) n).
  { rewrite <- (interp_dft (fun i => nth i p 0)), <- (interp_dft (fun i => nth i q 0)). apply f_equal, tab_ext. intros i Hi.
    pose proof (H i Hi) as E. rewrite (peval_pad F p _ n LP), (peval_pad F q _ n LQ) in E. exact E. }
  intros i. destruct (Nat.lt_ge_cases i n) as [L|L]; [|rewrite !nth_overflow by lia; reflexivity].
  rewrite <- (nth_tab F (fun i => nth i p 0) n i L), E. apply nth_tab, L.
Qed.
Lemma dft_idft_ok v : exists p, idft F ff v = Some p /\ trimmed p /\ (length p <= n)%nat /\
  (forall i, (i < n)%nat -> peval p (kpow wroot i) = nth i v 0) /\ dft F ff p = Some (resize F n v).
Proof.
  exists (format_degree F (interp v)). split; [apply idft_ok|]. split; [apply trim_trimmed|].
  assert (L : (length (format_degree F (interp v)) <= n)%nat) by (eapply Nat.le_trans; [apply trim_length|unfold interp; rewrite tab_length; lia]).
  assert (V : forall i, (i < n)%nat -> peval (format_degree F (interp v)) (kpow wroot i) = nth i v 0).
  { intros i Hi. rewrite (peval_same F _ _ _ (trim_same F (interp v))). apply interp_eval, Hi. }
  split; [exact L|]. split; [exact V|]. rewrite dft_ok. apply f_equal. rewrite (resize_tab n v). apply tab_ext. intros i Hi.
  rewrite <- (V i Hi). rewrite (peval_pad F _ _ n L). rewrite resize_tab, peval_tab. reflexivity.
Qed.
Lemma idft_dft_ok p : (length p <= n)%nat -> exists v, dft F ff p = Some v /\ idft F ff v = Some (format_degree F p).
Proof.
  intros L. eexists. split; [apply dft_ok|]. rewrite idft_ok. apply f_equal.
  rewrite (tab_ext F _ (fun i => pv F (fun j => nth j p 0) n (kpow wroot i))) by (intros i _; rewrite resize_tab, peval_tab; reflexivity).
  rewrite interp_dft. apply trim_unique. intros i. destruct (Nat.lt_ge_cases i n) as [Li|Li].
  - apply nth_tab, Li.
  - rewrite !nth_overflow by (rewrite ?tab_length; lia). reflexivity.
Qed.
(** ** The coset *)
Lemma zip_scale_nth (u : F) (l : list F) i m : (length l <= m)%nat -> nth i (zip_scale F l (powers F 1 u m)) 0 = nth i l 0 * kpow u i.
Proof.
  intros L. rewrite powers_tab. assert (G : forall l m (w : nat -> F) i, (length l <= m)%nat -> nth i (zip_scale F l (tab F w m)) 0 = nth i l 0 * w i).
  { clear. induction l as [|x l IH]; intros m w i L; [cbn; destruct i; cbn; ring|]. destruct m as [|m]; [cbn in L; lia|].
    rewrite tab_cons. cbn [zip_scale]. destruct i as [|i]; [reflexivity|]. cbn [nth]. apply (IH m (fun i => w (S i))). cbn in L. lia. }
  rewrite G by exact L. ring.
Qed.
Lemma zip_scale_length (l c : list F) : length (zip_scale F l c) = length l.
Proof. revert c. induction l as [|x l IH]; intros [|y c]; cbn; rewrite ?IH; reflexivity. Qed.
Lemma coset_dft_ok p : (length p <= n)%nat ->
  coset_dft F ff p = Some (tab F (fun i => peval p (gen * kpow wroot i)) n).
Proof.
  intros L. unfold coset_dft. rewrite dft_ok. apply f_equal, tab_ext. intros i Hi. rewrite ff_eq. cbn [fft_cosets].
  rewrite resize_tab, peval_tab, (peval_pad F p _ n L). apply sumn_ext. intros j _.
  rewrite zip_scale_nth by exact L. rewrite kpow_mul_l. ring.
Qed.
Lemma coset_idft_ok p v : (length p <= n)%nat -> (forall i, (i < n)%nat -> nth i v 0 = peval p (gen * kpow wroot i)) ->
  coset_idft F ff v = Some (format_degree F p).
Proof.
  intros L H. unfold coset_idft. destruct (dft_idft_ok v) as (q & E & T & Lq & V & _). rewrite E. apply f_equal.
  unfold coeffs_new. apply trim_unique. intros i. rewrite ff_eq. cbn [fft_icosets]. rewrite zip_scale_nth by exact Lq.
  assert (SQ : same_poly q (zip_scale F p (powers F 1 gen n))).
  { apply domain_unique; [exact Lq|rewrite zip_scale_length; exact L|]. intros j Hj. rewrite V, H by exact Hj.
    rewrite (peval_pad F p _ n L), (peval_pad F (zip_scale F p _) _ n) by (rewrite zip_scale_length; exact L).
    apply sumn_ext. intros l _. rewrite zip_scale_nth by exact L. rewrite kpow_mul_l. ring. }
  rewrite SQ, zip_scale_nth by exact L.
  assert (E1 : kpow gen i * kpow (kinv gen) i = 1).
  { rewrite <- kpow_mul_l. replace (gen * kinv gen) with (1 : F); [apply kpow_1_l|]. rewrite <- (kinv_l F gen (proj2 (proj2 (proj2 HC)))). ring. }
  transitivity (nth i p 0 * (kpow gen i * kpow (kinv gen) i)); [ring|]. rewrite E1. ring.
Qed.
Lemma wroot_n : kpow wroot n = 1. Proof. rewrite n_eq. apply root_n, wroot_half. Qed.

(** ** Products and exact division *)
Fixpoint padd (p q : list F) : list F :=
  match p, q with [], q => q | p, [] => p | a :: p, b :: q => a + b :: padd p q end.
Fixpoint pmul (p q : list F) : list F := match p with [] => [] | c :: p => padd (map (kmul c) q) (0 :: pmul p q) end.
Lemma padd_eval (p : list F) : forall q x, peval (padd p q) x = peval p x + peval q x.
Proof.
  induction p as [|a p IH]; intros [|b q] x; cbn [padd]; rewrite ?peval_nil; try ring. rewrite !peval_cons, IH. ring.
Qed.
Lemma padd_length p : forall q, length (padd p q) = Nat.max (length p) (length q).
Proof. induction p as [|a p IH]; intros [|b q]; cbn; try reflexivity. rewrite IH. reflexivity. Qed.
Lemma map_eval c (p : list F) x : peval (map (kmul c) p) x = c * peval p x.
Proof. induction p as [|a p IH]; cbn [map]; rewrite ?peval_nil; [ring|]. rewrite !peval_cons, IH. ring. Qed.
Lemma pmul_eval (p q : list F) x : peval (pmul p q) x = peval p x * peval q x.
Proof. induction p as [|a p IH]; cbn [pmul]; [rewrite !peval_nil; ring|]. rewrite padd_eval, map_eval, !peval_cons, IH. ring. Qed.
Lemma pmul_length p q : (length (pmul p q) <= length p + (length q - 1))%nat.
Proof. induction p as [|a p IH]; cbn [pmul length]; [lia|]. rewrite padd_length, map_length. cbn [length]. lia. Qed.
Lemma peval_app (p q : list F) x : peval (p ++ q) x = peval p x + kpow x (length p) * peval q x.
Proof. induction p as [|a p IH]; cbn [app length kpow]; [rewrite peval_nil; ring|]. rewrite !peval_cons, IH. ring. Qed.
Lemma exact_division (p : list F) : (length p <= n + (n - 1))%nat -> (forall i, (i < n)%nat -> peval p (kpow wroot i) = 0) ->
  exists h, (length h <= n - 1)%nat /\ forall x, peval p x = (kpow x n - 1) * peval h x.
Proof.
  intros L H. exists (skipn n p). split; [rewrite skipn_length; lia|].
  assert (S : forall x, peval p x = peval (padd (firstn n p) (skipn n p)) x + (kpow x n - 1) * peval (skipn n p) x).
  { intros x. rewrite padd_eval. rewrite <- (firstn_skipn n p) at 1. rewrite peval_app.
    destruct (Nat.le_gt_cases n (length p)) as [G|G].
    - rewrite firstn_length, Nat.min_l by exact G. ring.
    - rewrite skipn_all2 by lia. rewrite peval_nil. ring. }
  assert (Z : same_poly (padd (firstn n p) (skipn n p)) []).
  { apply domain_unique; [rewrite padd_length, firstn_length, skipn_length; lia|cbn; lia|]. intros i Hi. rewrite peval_nil.
    rewrite <- (H i Hi), (S (kpow wroot i)). rewrite <- kpow_mul, Nat.mul_comm, kpow_mul, wroot_n, kpow_1_l. ring. }
  intros x. rewrite (S x), (peval_same F _ _ _ Z), peval_nil. ring.
Qed.
(** [A B - C] for polynomials agreeing on the domain. *)
Lemma quotient (a b c : list F) : (length a <= n)%nat -> (length b <= n)%nat -> (length c <= n)%nat ->
  (forall i, (i < n)%nat -> peval a (kpow wroot i) * peval b (kpow wroot i) = peval c (kpow wroot i)) ->
  exists h, (length h <= n - 1)%nat /\ forall x, peval a x * peval b x - peval c x = (kpow x n - 1) * peval h x.
Proof.
  intros La Lb Lc H. destruct (exact_division (padd (pmul a b) (map (kmul (- (1))) c))) as (h & Lh & E).
  - rewrite padd_length, map_length. pose proof (pmul_length a b). assert (0 < n)%nat by (apply pow2_pos). lia.
  - intros i Hi. rewrite padd_eval, pmul_eval, map_eval, (H i Hi). ring.
  - exists h. split; [exact Lh|]. intros x. rewrite <- E, padd_eval, pmul_eval, map_eval. ring.
Qed.
End Inv.
