(** The radix-2 transform evaluates, the inverse transform interpolates. *)
From Coq Require Import ZArith List Bool Lia Field.
From Verif Require Import Algebra PolyModel PolySpec PolyProofs.
Import ListNotations.

(** ** Bit reversal on natural numbers *)
Fixpoint bv (k i : nat) : nat := match k with O => O | S k => 2 * bv k (i mod 2 ^ k) + i / 2 ^ k end.
Lemma pow2_pos k : 0 < 2 ^ k. Proof. apply Nat.neq_0_lt_0, Nat.pow_nonzero. lia. Qed.
Lemma bv_low k i : i < 2 ^ k -> bv (S k) i = 2 * bv k i.
Proof. intros H. cbn [bv]. rewrite Nat.mod_small, Nat.div_small by exact H. lia. Qed.
Lemma bv_high k i : i < 2 ^ k -> bv (S k) (2 ^ k + i) = 2 * bv k i + 1.
Proof.
  intros H. cbn [bv]. pose proof (pow2_pos k). replace (2 ^ k + i) with (i + 1 * 2 ^ k) by lia.
  rewrite Nat.mod_add, Nat.div_add, Nat.mod_small, Nat.div_small by lia. lia.
Qed.
Lemma split2 k i : i < 2 ^ S k -> i < 2 ^ k \/ exists j, i = 2 ^ k + j /\ j < 2 ^ k.
Proof. intros H. cbn in H. destruct (Nat.lt_ge_cases i (2 ^ k)); [auto|]. right. exists (i - 2 ^ k). lia. Qed.
Lemma bv_lt k : forall i, i < 2 ^ k -> bv k i < 2 ^ k.
Proof.
  induction k as [|k IH]; intros i H; [cbn; lia|]. destruct (split2 k i H) as [L|(j & -> & L)].
  - rewrite bv_low by exact L. specialize (IH i L). cbn [Nat.pow]. lia.
  - rewrite bv_high by exact L. specialize (IH j L). cbn [Nat.pow]. lia.
Qed.
(** Reading the lowest bit instead of the highest. *)
Lemma bv_even k : forall i, i < 2 ^ k -> bv (S k) (2 * i) = bv k i /\ bv (S k) (2 * i + 1) = 2 ^ k + bv k i.
Proof.
  induction k as [|k IH]; intros i H; [cbn in H; assert (i = 0) by lia; subst; split; reflexivity|].
  destruct (split2 k i H) as [L|(j & -> & L)].
  - destruct (IH i L) as [A C]. rewrite (bv_low (S k)), (bv_low (S k) (2 * i + 1)), A, C, (bv_low k i L) by (cbn [Nat.pow]; lia).
    cbn [Nat.pow]. lia.
  - destruct (IH j L) as [A C]. replace (2 * (2 ^ k + j)) with (2 ^ S k + 2 * j) by (cbn [Nat.pow]; lia).
    replace (2 ^ S k + 2 * j + 1) with (2 ^ S k + (2 * j + 1)) by lia.
    rewrite !(bv_high (S k)), A, C, (bv_high k j L) by (cbn [Nat.pow]; lia). cbn [Nat.pow]. lia.
Qed.
Lemma bv_invol k : forall i, i < 2 ^ k -> bv k (bv k i) = i.
Proof.
  induction k as [|k IH]; intros i H; [cbn in *; lia|]. destruct (split2 k i H) as [L|(j & -> & L)].
  - rewrite (bv_low k i) by exact L. rewrite (proj1 (bv_even k _ (bv_lt k i L))). apply IH, L.
  - rewrite (bv_high k j) by exact L. rewrite (proj2 (bv_even k _ (bv_lt k j L))). rewrite IH by exact L. reflexivity.
Qed.
(** The 64-bit reversal shifted right by [64 - k]. *)
Definition rv (k : nat) (i : Z) : Z := fold_left (fun acc j => 2 * acc + Z.b2z (Z.testbit i (Z.of_nat j)))%Z (seq 0 k) 0%Z.
Lemma rv_S k i : rv (S k) i = (2 * rv k i + Z.b2z (Z.testbit i (Z.of_nat k)))%Z.
Proof. unfold rv. rewrite seq_S, fold_left_app. reflexivity. Qed.
Lemma rv_mod k : forall i, rv k (i mod 2 ^ Z.of_nat k) = rv k i.
Proof.
  intros i. unfold rv. assert (E : forall n, n <= k -> forall acc, fold_left (fun acc j => 2 * acc + Z.b2z (Z.testbit (i mod 2 ^ Z.of_nat k) (Z.of_nat j)))%Z (seq 0 n) acc =
    fold_left (fun acc j => 2 * acc + Z.b2z (Z.testbit i (Z.of_nat j)))%Z (seq 0 n) acc).
  { induction n as [|n IH]; intros L acc; [reflexivity|]. rewrite seq_S, !fold_left_app, IH by lia. cbn [fold_left plus].
    rewrite Z.mod_pow2_bits_low by lia. reflexivity. }
  apply E. lia.
Qed.
Lemma rv_bv k : forall i, i < 2 ^ k -> rv k (Z.of_nat i) = Z.of_nat (bv k i).
Proof.
  induction k as [|k IH]; intros i H; [reflexivity|]. rewrite rv_S. cbn [bv].
  pose proof (pow2_pos k) as P2. assert (EP : Z.of_nat (2 ^ k) = (2 ^ Z.of_nat k)%Z) by (rewrite Nat2Z.inj_pow; reflexivity).
  rewrite <- rv_mod, <- EP, <- Nat2Z.inj_mod, IH by (apply Nat.mod_upper_bound; lia).
  assert (T : Z.b2z (Z.testbit (Z.of_nat i) (Z.of_nat k)) = Z.of_nat (i / 2 ^ k)).
  { rewrite Z.testbit_odd. rewrite Z.shiftr_div_pow2 by lia.
    rewrite <- EP, <- Nat2Z.inj_div. destruct (split2 k i H) as [L|(j & -> & L)].
    - rewrite Nat.div_small by exact L. reflexivity.
    - replace (2 ^ k + j) with (j + 1 * 2 ^ k) by lia. rewrite Nat.div_add, Nat.div_small by lia. reflexivity. }
  rewrite T. lia.
Qed.
Lemma rv_tail k i m : i < 2 ^ k -> rv (k + m) (Z.of_nat i) = (rv k (Z.of_nat i) * 2 ^ Z.of_nat m)%Z.
Proof.
  intros H. induction m as [|m IH]; [rewrite Nat.add_0_r; lia|]. rewrite Nat.add_succ_r, rv_S, IH.
  assert (T : Z.testbit (Z.of_nat i) (Z.of_nat (k + m)) = false).
  { destruct (Nat.eq_dec i 0) as [->|N]; [apply Z.bits_0|]. apply Z.bits_above_log2; [lia|].
    - apply Z.lt_le_trans with (Z.of_nat k); [|lia]. apply Z.log2_lt_pow2; [lia|]. 
      replace 2%Z with (Z.of_nat 2) by reflexivity. rewrite <- Nat2Z.inj_pow. lia. }
  rewrite T. cbn [Z.b2z]. rewrite Nat2Z.inj_succ, Z.pow_succ_r by lia. ring.
Qed.

Local Open Scope fld_scope.
Section Fft.
Variable F : Fld.
Add Field fftfield : (kth F).
Implicit Types (f g : nat -> F).

Lemma rev_pairs_eq k : (k <= 64)%nat ->
  rev_pairs k = flat_map (fun i => if Nat.ltb i (bv k i) then [(i, bv k i)] else []) (seq 0 (2 ^ k)).
Proof.
  intros Hk. unfold rev_pairs. rewrite !flat_map_concat_map. f_equal. apply map_ext_in. intros i Hi. apply in_seq in Hi.
  assert (E : Z.to_nat (Z.shiftr (reverse_bits (Z.of_nat i)) (64 - Z.of_nat k)) = bv k i); [|rewrite E; reflexivity].
  assert (E : reverse_bits (Z.of_nat i) = rv 64 (Z.of_nat i)) by (unfold reverse_bits, rv; reflexivity). rewrite E.
  assert (E64 : 64%nat = (k + (64 - k))%nat) by lia. rewrite E64 at 1.
  rewrite rv_tail, rv_bv by lia. rewrite Z.shiftr_div_pow2 by lia.
  replace (Z.of_nat (64 - k)) with (64 - Z.of_nat k)%Z by lia. rewrite Z.div_mul by (apply Z.pow_nonzero; lia). apply Nat2Z.id.
Qed.

(** ** Swapping *)
Lemma set_at_tab g n i v : (i < n)%nat -> set_at F (tab F g n) i v = tab F (fun x => if Nat.eqb x i then v else g x) n.
Proof.
  revert g i. induction n as [|n IH]; intros g i H; [lia|]. rewrite !tab_cons. destruct i as [|i]; cbn [set_at Nat.eqb].
  - f_equal.
  - f_equal. rewrite IH by lia. reflexivity.
Qed.
Lemma swap_tab g n i j : (i < n)%nat -> (j < n)%nat ->
  swap F (tab F g n) i j = Some (tab F (fun x => if Nat.eqb x j then g i else if Nat.eqb x i then g j else g x) n).
Proof.
  intros Hi Hj. unfold swap. rewrite !nth_error_tab by assumption. rewrite !set_at_tab by assumption. reflexivity.
Qed.
Lemma swaps_app ps qs : forall l, swaps F (ps ++ qs) l = match swaps F ps l with Some l => swaps F qs l | None => None end.
Proof. induction ps as [|[i j] ps IH]; intros l; [reflexivity|]. cbn [app swaps]. destruct (swap F l j i); [apply IH|reflexivity]. Qed.
Lemma swaps_ok r n (f : nat -> F) : (forall i, (i < n)%nat -> (r i < n)%nat /\ r (r i) = i) ->
  swaps F (flat_map (fun i => if Nat.ltb i (r i) then [(i, r i)] else []) (seq 0 n)) (tab F f n) = Some (tab F (fun i => f (r i)) n).
Proof.
  intros Hr. set (g := fun t j => if Nat.ltb (Nat.min j (r j)) t then f (r j) else f j).
  assert (St : forall t, (t <= n)%nat -> swaps F (flat_map (fun i => if Nat.ltb i (r i) then [(i, r i)] else []) (seq 0 t)) (tab F f n) = Some (tab F (g t) n)).
  { induction t as [|t IH]; intros Ht.
    - cbn. apply f_equal, tab_ext. reflexivity.
    - rewrite seq_S, flat_map_app, swaps_app, IH by lia. cbn [plus flat_map]. rewrite app_nil_r.
      destruct (Hr t ltac:(lia)) as [R1 R2]. destruct (Nat.ltb_spec t (r t)) as [L|L].
      + cbn [swaps]. rewrite swap_tab by lia. apply f_equal, tab_ext. intros j Hj. unfold g.
        destruct (Hr j Hj) as [J1 J2].
        destruct (Nat.eqb_spec j t) as [->|N1].
        * rewrite R2. destruct (Nat.ltb_spec (Nat.min (r t) t) t); [lia|]. destruct (Nat.ltb_spec (Nat.min t (r t)) (S t)); [reflexivity|lia].
        * destruct (Nat.eqb_spec j (r t)) as [->|N2].
          -- rewrite R2. destruct (Nat.ltb_spec (Nat.min t (r t)) t); [lia|]. destruct (Nat.ltb_spec (Nat.min (r t) t) (S t)); [reflexivity|lia].
          -- assert (r j <> t) by (intros E; rewrite <- E in N2; congruence).
             destruct (Nat.ltb_spec (Nat.min j (r j)) t), (Nat.ltb_spec (Nat.min j (r j)) (S t)); try reflexivity; lia.
      + cbn [swaps]. apply f_equal, tab_ext. intros j Hj. unfold g. destruct (Hr j Hj) as [J1 J2].
        destruct (Nat.ltb_spec (Nat.min j (r j)) t), (Nat.ltb_spec (Nat.min j (r j)) (S t)); try reflexivity; try lia.
        assert (E : j = t \/ r j = t) by lia. destruct E as [->|E].
        * assert (r t = t) by lia. congruence.
        * assert (j = r t) by congruence. subst j. assert (r t = t) by lia. congruence. }
  rewrite (St n (le_n n)). apply f_equal, tab_ext. intros j Hj. unfold g. destruct (Nat.ltb_spec (Nat.min j (r j)) n); [reflexivity|lia].
Qed.

(** ** The recursion *)
Lemma butterfly_tab_from chunk tw w n : (forall i, (i < n)%nat -> nth_error tw (i * chunk) = Some (kpow w i)) ->
  forall d s (f g : nat -> F), (s + d = n)%nat ->
  butterfly_from F s chunk tw (tab F (fun i => f (s + i)%nat) d) (tab F (fun i => g (s + i)%nat) d) =
  Some (tab F (fun i => f (s + i)%nat + kpow w (s + i) * g (s + i)%nat) d, tab F (fun i => f (s + i)%nat - kpow w (s + i) * g (s + i)%nat) d).
Proof.
  intros Htw. induction d as [|d IH]; intros s f g E; [reflexivity|]. rewrite !tab_cons. cbn [butterfly_from].
  assert (A : (if Nat.eqb s 0 then Some (g (s + 0)%nat) else match nth_error tw (s * chunk) with Some w0 => Some (g (s + 0)%nat * w0) | None => None end) = Some (kpow w (s + 0) * g (s + 0)%nat)).
  { destruct (Nat.eqb_spec s 0) as [->|N]; [cbn; f_equal; ring|]. rewrite Htw by lia. rewrite Nat.add_0_r. f_equal. ring. }
  rewrite A.
  assert (SS : forall h : nat -> F, tab F (fun i => h (s + S i)%nat) d = tab F (fun i => h (S s + i)%nat) d)
    by (intros h; apply tab_ext; intros i _; f_equal; lia).
  rewrite (SS f), (SS g), IH by lia.
  rewrite (SS (fun j => f j + kpow w j * g j)), (SS (fun j => f j - kpow w j * g j)). reflexivity.
Qed.
Lemma butterfly_tab chunk tw w n f g : (0 < n)%nat -> (forall i, (i < n)%nat -> nth_error tw (i * chunk) = Some (kpow w i)) ->
  butterfly F chunk tw (tab F f n) (tab F g n) =
  Some (tab F (fun i => f i + kpow w i * g i) n, tab F (fun i => f i - kpow w i * g i) n).
Proof.
  intros Hn Htw. pose proof (butterfly_tab_from chunk tw w n Htw n 0 f g eq_refl) as E. cbn [plus] in E.
  destruct n as [|n]; [lia|]. rewrite !tab_cons in E |- *. exact E.
Qed.
Definition pv f n (x : F) : F := sumn (fun i => f i * kpow x i) n.
Lemma pv_split f n x : pv f (n + n) x = pv (fun j => f (2 * j)%nat) n (x * x) + x * pv (fun j => f (2 * j + 1)%nat) n (x * x).
Proof.
  unfold pv. induction n as [|n IH]; [cbn; ring|].
  replace (S n + S n)%nat with (S (S (n + n))) by lia. cbn [sumn]. rewrite IH.
  replace (2 * n)%nat with (n + n)%nat by lia. replace (n + n + 1)%nat with (S (n + n)) by lia.
  rewrite (kpow_mul_l F x x n), <- kpow_add. cbn [kpow]. ring.
Qed.
Lemma pow2_S k : (2 ^ S k = 2 ^ k + 2 ^ k)%nat. Proof. cbn. lia. Qed.
Lemma firstn_tab f n m : (n <= m)%nat -> firstn n (tab F f m) = tab F f n.
Proof.
  intros L. replace m with (n + (m - n))%nat by lia. rewrite tab_app, firstn_app, tab_length, Nat.sub_diag. cbn [firstn]. rewrite app_nil_r.
  rewrite <- (tab_length F f n) at 1. apply firstn_all.
Qed.
Lemma skipn_tab f n m : skipn n (tab F f (n + m)) = tab F (fun i => f (n + i)%nat) m.
Proof.
  rewrite tab_app, skipn_app, tab_length, Nat.sub_diag. cbn [skipn].
  rewrite <- (tab_length F f n) at 1. rewrite skipn_all. reflexivity.
Qed.
Lemma classic_ok tw : forall k fuel chunk (f : nat -> F) w, (k < fuel)%nat -> kpow w (2 ^ k) = - (1) ->
  (forall i, (i < 2 ^ k)%nat -> nth_error tw (i * chunk) = Some (kpow w i)) ->
  classic_fft F fuel (tab F (fun i => f (bv (S k) i)) (2 ^ S k)) (2 ^ S k) chunk tw = Some (tab F (fun i => pv f (2 ^ S k) (kpow w i)) (2 ^ S k)).
Proof.
  induction k as [|k IH]; intros fuel chunk f w Hf Hw Htw; (destruct fuel as [|fuel]; [lia|]).
  - change (2 ^ 1)%nat with 2%nat. change (2 ^ 0)%nat with 1%nat in Hw. rewrite !tab_cons. cbn [classic_fft Nat.eqb].
    change (bv 1 0) with 0%nat. change (bv 1 1) with 1%nat. cbn [kpow] in Hw.
    unfold pv. cbn [sumn kpow tab map seq]. apply f_equal.
    assert (E : w = - (1)) by (rewrite <- Hw; ring). rewrite E. f_equal; [ring|]. f_equal; ring.
  - cbn [classic_fft]. set (h := (2 ^ S k)%nat). assert (Hh : (2 ^ S (S k) = h + h)%nat) by apply pow2_S. rewrite Hh.
    assert (H2 : (2 <= h)%nat) by (unfold h; cbn; pose proof (pow2_pos k); lia).
    destruct (Nat.eqb_spec (h + h) 2); [lia|].
    assert (D : ((h + h) / 2 = h)%nat) by (replace (h + h)%nat with (h * 2)%nat by lia; apply Nat.div_mul; lia). rewrite D.
    rewrite tab_length. destruct (Nat.ltb_spec (h + h) h); [lia|].
    rewrite firstn_tab, skipn_tab by lia.
    assert (Hw2 : kpow (w * w) (2 ^ k) = - (1)).
    { rewrite kpow_mul_l, <- kpow_add, <- pow2_S. exact Hw. }
    assert (Htw2 : forall i, (i < 2 ^ k)%nat -> nth_error tw (i * (chunk * 2)) = Some (kpow (w * w) i)).
    { intros i Hi. rewrite kpow_mul_l, <- kpow_add. replace (i * (chunk * 2))%nat with ((i + i) * chunk)%nat by lia. apply Htw. rewrite pow2_S. lia. }
    rewrite (tab_ext F (fun i => f (bv (S (S k)) i)) (fun i => (fun j => f (2 * j)%nat) (bv (S k) i)) h) by (intros i Hi; rewrite (bv_low (S k) i Hi); reflexivity).
    rewrite (tab_ext F (fun i => f (bv (S (S k)) (h + i))) (fun i => (fun j => f (2 * j + 1)%nat) (bv (S k) i)) h)
      by (intros i Hi; unfold h in *; rewrite (bv_high (S k) i Hi); reflexivity).
    pose proof (IH fuel (chunk * 2)%nat (fun j => f (2 * j)%nat) (w * w) ltac:(lia) Hw2 Htw2) as E1.
    pose proof (IH fuel (chunk * 2)%nat (fun j => f (2 * j + 1)%nat) (w * w) ltac:(lia) Hw2 Htw2) as E2.
    fold h in E1, E2. cbv beta in E1, E2 |- *. rewrite E1, E2. rewrite (butterfly_tab chunk tw w h) by (assumption || lia). apply f_equal. rewrite tab_app. f_equal; apply tab_ext; intros i Hi.
    + rewrite pv_split, kpow_mul_l. reflexivity.
    + rewrite pv_split, kpow_mul_l. rewrite (kpow_add F w h i). fold h in Hw. rewrite Hw.
      replace (- (1) * kpow w i * (- (1) * kpow w i)) with (kpow w i * kpow w i) by ring. ring.
Qed.
End Fft.
