(** Groth16 on exponents. *)
From Coq Require Import ZArith List Bool Lia.
From Verif Require Import Algebra GroupLib PolySpec PolyModel PolyProofs FftProofs FftInverse R1csModel R1csSpec R1csProofs ClaimsR1cs Groth16Model Groth16Spec Groth16Lift.
Import ListNotations.
Local Open Scope fld_scope.

(** ** Sums over wires and rows *)
Section Transpose.
Variable F : Fld.
Add Field gpf0 : (kth F).
Variable L : nat -> F.
Definition colval (col : list (F * nat)) : F := ksum (map (fun e => L (snd e) * fst e) col).
Lemma colval_app a b : colval (a ++ b) = colval a + colval b.
Proof. unfold colval. rewrite map_app, (ksum_app F). reflexivity. Qed.
Definition col_from (i : nat) (w : wire) (rows : list (row F)) : list (F * nat) :=
  flat_map (fun '(i, r) => map (fun e => (snd e, i)) (filter (fun e => wire_eqb (fst e) w) r)) (combine (seq i (length rows)) rows).
Lemma col_cons i w r rows : col_from i w (r :: rows) = map (fun e => (snd e, i)) (filter (fun e => wire_eqb (fst e) w) r) ++ col_from (S i) w rows.
Proof. reflexivity. Qed.
Variables (z : asg F) (l m1 : nat).
Definition ok_entry (e : wire * F) : Prop := match fst e with Inst k => (k < l)%nat | Wit k => (k < m1)%nat end.
Lemma sumn_delta (f : nat -> F) n j c : (j < n)%nat -> sumn (fun k => f k * (if Nat.eqb j k then c else 0)) n = f j * c.
Proof.
  intros Hj. rewrite (sumn_single F _ n j Hj).
  - rewrite Nat.eqb_refl. reflexivity.
  - intros i Hi N. destruct (Nat.eqb_spec j i); [congruence|ring].
Qed.
Definition wires (f : wire -> F) : F := sumn (fun k => z (Inst k) * f (Inst k)) l + sumn (fun k => z (Wit k) * f (Wit k)) m1.
Lemma wires_add f g : wires (fun w => f w + g w) = wires f + wires g.
Proof.
  unfold wires. rewrite (sumn_ext F _ (fun k => z (Inst k) * f (Inst k) + z (Inst k) * g (Inst k)) l) by (intros; ring).
  rewrite (sumn_ext F (fun k => z (Wit k) * (f (Wit k) + g (Wit k))) (fun k => z (Wit k) * f (Wit k) + z (Wit k) * g (Wit k)) m1) by (intros; ring).
  rewrite !sumn_add. ring.
Qed.
Lemma wires_ext f g : (forall w, f w = g w) -> wires f = wires g.
Proof. intros H. unfold wires. apply f_equal2; apply sumn_ext; intros; rewrite H; reflexivity. Qed.
Lemma wires_0 : wires (fun _ => 0) = 0.
Proof. unfold wires. rewrite !sumn_0 by (intros; ring). ring. Qed.
Lemma wires_one e i : ok_entry e -> wires (fun w => colval (map (fun e => (snd e, i)) (filter (fun e => wire_eqb (fst e) w) [e]))) = L i * (snd e * z (fst e)).
Proof.
  intros H. destruct e as [w0 c]. unfold ok_entry in H. cbn [fst snd] in *.
  assert (E : forall w, colval (map (fun e : wire * F => (snd e, i)) (filter (fun e => wire_eqb (fst e) w) [(w0, c)])) = if wire_eqb w0 w then L i * c else 0).
  { intros w. cbn [filter fst]. destruct (wire_eqb w0 w); unfold colval; cbn [map snd fst]; [rewrite (ksum_cons F)|]; change (@ksum F []) with (0 : F); ring. }
  rewrite (wires_ext _ _ E). unfold wires. destruct w0 as [j|j]; cbn [wire_eqb].
  - rewrite (sumn_delta (fun k => z (Inst k)) l j (L i * c) H), sumn_0 by (intros; ring). ring.
  - rewrite (sumn_delta (fun k => z (Wit k)) m1 j (L i * c) H), sumn_0 by (intros; ring). ring.
Qed.
Lemma wires_row i r : Forall ok_entry r -> wires (fun w => colval (map (fun e => (snd e, i)) (filter (fun e => wire_eqb (fst e) w) r))) = L i * lc z r.
Proof.
  induction 1 as [|e r H _ IH].
  - rewrite (wires_ext _ (fun _ => 0)) by reflexivity. rewrite wires_0. unfold lc. cbn [map]. change (@ksum F []) with (0 : F). ring.
  - rewrite (wires_ext _ (fun w => colval (map (fun e => (snd e, i)) (filter (fun e => wire_eqb (fst e) w) [e])) +
       colval (map (fun e => (snd e, i)) (filter (fun e => wire_eqb (fst e) w) r)))).
    + rewrite wires_add, (wires_one e i H), IH. unfold lc. cbn [map]. rewrite (ksum_cons F). ring.
    + intros w. rewrite <- colval_app, <- map_app. apply f_equal, f_equal. cbn [filter]. destruct (wire_eqb (fst e) w); reflexivity.
Qed.
Lemma wires_rows : forall rows i, Forall (Forall ok_entry) rows ->
  wires (fun w => colval (col_from i w rows)) = sumn (fun j => L (i + j) * lc z (nth j rows [])) (length rows).
Proof.
  induction rows as [|r rows IH]; intros i H.
  - rewrite (wires_ext _ (fun _ => 0)) by reflexivity. rewrite wires_0. reflexivity.
  - inversion H as [|? ? Hr Hrs]; subst. 
    rewrite (wires_ext (fun w => colval (col_from i w (r :: rows))) (fun w => colval (map (fun e => (snd e, i)) (filter (fun e => wire_eqb (fst e) w) r)) +
       colval (col_from (S i) w rows))) by (intros w; rewrite col_cons; apply colval_app).
    rewrite wires_add, (wires_row i r Hr), (IH (S i) Hrs). cbn [length].
    rewrite sumn_first. cbn [nth]. rewrite Nat.add_0_r. apply f_equal2; [reflexivity|]. apply sumn_ext. intros j _. replace (i + S j)%nat with (S i + j)%nat by lia. reflexivity.
Qed.
Lemma transpose_sum (rows : list (row F)) : Forall (Forall ok_entry) rows ->
  wires (fun w => colval (column w rows)) = sumn (fun j => L j * lc z (nth j rows [])) (length rows).
Proof. intros H. exact (wires_rows rows 0 H). Qed.
Lemma column_bound w (rows : list (row F)) e : In e (column w rows) -> (snd e < length rows)%nat.
Proof.
  unfold column. rewrite in_flat_map. intros ([i r] & HI & HE). apply in_combine_l in HI. apply in_seq in HI.
  apply in_map_iff in HE. destruct HE as (x & <- & _). cbn. lia.
Qed.
End Transpose.

(** ** Lagrange values at [tau] *)
Section Lagrange.
Variable F : Fld.
Add Field gpf1 : (kth F).
Hypothesis two : (1 + 1 : F) <> 0.
Variables (s : nat) (root gen : F).
Hypothesis HC : fft_consts F s root gen.
Variable k : nat.
Hypothesis Hk : (1 <= k <= s)%nat.
Variable ff : fft F.
Hypothesis Hff : fft_new F s root gen k = Some ff.
Let n := (2 ^ k)%nat.
Notation w := (wroot F s root k).
Variable tau : F.
Definition lagr (j : nat) : F := pv F (fun i => kpow tau i) n (kpow (kinv w) j) * kinv (kofnat n).
Lemma lagr_interp v : sumn (fun j => lagr j * nth j v 0) n = peval (interp F s root k v) tau.
Proof.
  unfold interp. fold n. rewrite peval_tab. unfold lagr, pv.
  rewrite (sumn_ext F _ (fun j => sumn (fun i => kpow tau i * (nth j v 0 * kpow (kpow (kinv w) j) i) * kinv (kofnat n)) n)).
  - rewrite sumn_swap. apply sumn_ext. intros i _.
    rewrite (sumn_ext F _ (fun j => (kpow tau i * kinv (kofnat n)) * (nth j v 0 * kpow (kpow (kinv w) i) j))).
    + rewrite sumn_scale. ring.
    + intros j _. rewrite <- !kpow_mul, (Nat.mul_comm i j). ring.
  - intros j _. transitivity ((kinv (kofnat n) * nth j v 0) * sumn (fun i => kpow tau i * kpow (kpow (kinv w) j) i) n); [ring|].
    rewrite <- sumn_scale. apply sumn_ext. intros; ring.
Qed.
Lemma lagr_last : kpow tau n <> 1 -> lagr (n - 1) <> 0.
Proof.
  intros NT. set (x := tau * kpow (kinv w) (n - 1)). assert (E : pv F (fun i => kpow tau i) n (kpow (kinv w) (n - 1)) = sumn (fun i => kpow x i) n).
  { apply sumn_ext. intros i _. unfold x. rewrite kpow_mul_l. reflexivity. }
  unfold lagr. rewrite E. apply (kmul_neq0 F).
  - intros E0. pose proof (geom F x n) as H. rewrite E0 in H. apply NT. transitivity (kpow x n - 1 + 1); [|rewrite <- H; ring].
    unfold x. rewrite kpow_mul_l. assert (W : kpow (kpow (kinv w) (n - 1)) n = 1).
    { rewrite <- kpow_mul, Nat.mul_comm, kpow_mul. assert (W : kpow (kinv w) n = 1).
      { assert (I : kpow w n * kpow (kinv w) n = 1) by (rewrite <- kpow_mul_l, (winv F s root gen HC k Hk); apply kpow_1_l).
        pose proof (wroot_n F s root gen HC k Hk) as WN. change (kpow w n = 1) in WN. rewrite WN in I. rewrite <- I. ring. }
      rewrite W. apply kpow_1_l. }
    rewrite W. ring.
  - intros E0. pose proof (kinv_l F (kofnat n) (kofnat_pow2 F two k)) as I. rewrite E0 in I. apply (k1_neq0 F). rewrite <- I. ring.
Qed.
Lemma lag_ok : kpow tau n <> 1 -> idft F ff (powers F 1 tau n) = Some (tab F lagr n).
Proof.
  intros NT. rewrite (idft_ok F two s root gen HC k Hk ff Hff). apply f_equal.
  assert (E : interp F s root k (powers F 1 tau n) = tab F lagr n).
  { unfold interp. fold n. apply tab_ext. intros j Hj. unfold lagr. apply f_equal2; [|reflexivity]. apply sumn_ext. intros i Hi.
    rewrite powers_tab, nth_tab by exact Hi. ring. }
  rewrite E. apply trim_id. right. rewrite last_nth.
  - rewrite tab_length, nth_tab; [exact (lagr_last NT)|]. assert (0 < n)%nat by apply pow2_pos. lia.
  - intros E0. apply (f_equal (@length F)) in E0. rewrite tab_length in E0. assert (0 < n)%nat by apply pow2_pos. cbn in E0. lia.
Qed.
Lemma eval_from_ok p : forall acc, (forall e, In e p -> (snd e < n)%nat) ->
  eval_from F acc (tab F lagr n) p = Some (acc + colval F lagr p).
Proof.
  induction p as [|[c i] p IH]; intros acc H.
  - cbn. apply f_equal. unfold colval. cbn [map]. change (@ksum F []) with (0 : F). ring.
  - cbn [eval_from]. rewrite nth_error_tab by (apply (H (c, i)); left; reflexivity). rewrite IH by (intros e HE; apply H; right; exact HE).
    apply f_equal. unfold colval. cbn [map fst snd]. rewrite (ksum_cons F). ring.
Qed.
Lemma eval_at_tau_ok w0 (rows : list (row F)) : (length rows <= n)%nat -> eval_at_tau F (tab F lagr n) (column w0 rows) = Some (colval F lagr (column w0 rows)).
Proof.
  intros LR. unfold eval_at_tau. rewrite eval_from_ok.
  - apply f_equal. ring.
  - intros e HE. apply column_bound in HE. lia.
Qed.
End Lagrange.
