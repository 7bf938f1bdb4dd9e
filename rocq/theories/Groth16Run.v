(** Setup, proving and verification on exponents, in closed form. *)
From Coq Require Import ZArith List Bool Lia.
From Verif Require Import Algebra GroupLib PolySpec PolyModel PolyProofs FftProofs FftInverse R1csModel R1csSpec R1csProofs ClaimsR1cs Groth16Model Groth16Spec Groth16Lift Groth16Proofs.
Import ListNotations.
Local Open Scope fld_scope.

Section Run.
Variable F : Fld.
Add Field grf : (kth F).
Hypothesis two : (1 + 1 : F) <> 0.
Variables (s : nat) (root gen : F).
Hypothesis HC : fft_consts F s root gen.
Variable k : nat.
Hypothesis Hk : (1 <= k <= s)%nat.
Hypothesis Hgen : kpow gen (2 ^ k) <> 1.
Local Notation E := (exps F).
Local Notation n := (2 ^ k)%nat.
Notation w := (wroot F s root k).

Lemma log_n : fft_log n = k. Proof. apply Nat.log2_up_pow2. lia. Qed.
Lemma n_pos : (0 < n)%nat. Proof. apply pow2_pos. Qed.

Section Keys.
Variable cs0 : r1cs F.
Hypothesis W0 : wf_cs cs0.
Hypothesis Hm : r_m cs0 = n.
Variables alpha beta gamma delta tau : F.
Hypothesis HU : usable n gamma delta tau.
Definition uA (x : wire) : F := colval F (lagr F s root k tau) (column x (r_a cs0)).
Definition uB (x : wire) : F := colval F (lagr F s root k tau) (column x (r_b cs0)).
Definition uC (x : wire) : F := colval F (lagr F s root k tau) (column x (r_c cs0)).
Definition uExt (inv : F) (x : wire) : F := (uA x * beta + uB x * alpha + uC x) * inv.
Definition ins : list wire := map Inst (seq 0 (length (r_x cs0))).
Definition auxs : list wire := map Wit (seq 0 (length (r_w cs0))).
Definition vkE : vkey (gA1 E) (gA2 E) :=
  mkVk (gA1 E) (gA2 E) alpha beta beta gamma delta delta (map (uExt (kinv gamma)) ins).
Definition pkE : params (gA1 E) (gA2 E) :=
  mkParams (gA1 E) (gA2 E) vkE (tab F (fun i => kpow tau i * ((kpow tau n - 1) * kinv delta)) (n - 1)) (map (uExt (kinv delta)) auxs)
    (map uA ins ++ map uA auxs) (map uB ins ++ map uB auxs) (map uB ins ++ map uB auxs).

Lemma rows_le : (length (r_a cs0) <= n)%nat /\ (length (r_b cs0) <= n)%nat /\ (length (r_c cs0) <= n)%nat.
Proof. destruct W0 as (A & B & C & _). rewrite A, B, C, Hm. lia. Qed.
Lemma range_entries mat : (forall r, In r mat -> In r (r_a cs0 ++ r_b cs0 ++ r_c cs0)) ->
  forall r e, In r mat -> In e r -> match fst e with Inst j => (j < length (r_x cs0))%nat | Wit j => (j < length (r_w cs0))%nat end.
Proof.
  intros H r e Hr He. destruct W0 as (_ & _ & _ & _ & R). rewrite Forall_forall in R. specialize (R r (H r Hr)). rewrite Forall_forall in R.
  specialize (R (fst e) (in_map fst _ _ He)). destruct (fst e); exact R.
Qed.
Lemma xw_ok mat : (forall r, In r mat -> In r (r_a cs0 ++ r_b cs0 ++ r_c cs0)) ->
  x_and_w F mat (length (r_x cs0)) (length (r_w cs0)) = Some (map (fun x => column x mat) ins, map (fun x => column x mat) auxs).
Proof.
  intros H. destruct (C29_transpose F mat _ _ (range_entries mat H)) as (x & y & -> & LX & LY & NX & NY). apply (f_equal Some).
  assert (G : forall (l : list (list (F * nat))) N (f : nat -> wire), length l = N -> (forall j, (j < N)%nat -> nth j l [] = column (f j) mat) ->
      l = map (fun x => column x mat) (map f (seq 0 N))).
  { intros l N f LN HN. rewrite map_map. apply (nth_ext _ _ [] []); [rewrite map_length, seq_length; exact LN|].
    intros j Hj. rewrite LN in Hj. rewrite (HN j Hj). symmetry. rewrite (nth_indep _ [] (column (f 0%nat) mat)) by (rewrite map_length, seq_length; exact Hj).
    rewrite (map_nth (fun j => column (f j) mat)). rewrite seq_nth by exact Hj. reflexivity. }
  apply f_equal2; [apply G; assumption|apply G; assumption].
Qed.
Lemma eval_exps len inv ws : len = length ws ->
  eval F (gA1 E) (gA2 E) (gmul1 E) (gmul2 E) (gg1 E) (gg2 E) len (tab F (lagr F s root k tau) n) inv alpha beta
    (map (fun x => column x (r_a cs0)) ws) (map (fun x => column x (r_b cs0)) ws) (map (fun x => column x (r_c cs0)) ws) =
  Some (map uA ws, map uB ws, map uB ws, map (uExt inv) ws).
Proof.
  intros ->. unfold eval. rewrite !map_length, Nat.eqb_refl. cbn [andb]. destruct rows_le as (LA & LB & LC).
  induction ws as [|x ws IH]; [reflexivity|]. cbn [map eval_all]. rewrite IH. unfold eval_one.
  rewrite !eval_at_tau_ok by assumption. fold (uA x) (uB x) (uC x).
  assert (N : forall v : F, (if kis0 v then @a0 (gA1 E) else gmul1 E (gg1 E) v) = v).
  { intros v. unfold kis0. destruct (keqb_spec F v 0) as [->|_]; [reflexivity|]. cbn. ring. }
  assert (N2 : forall v : F, (if kis0 v then @a0 (gA2 E) else gmul2 E (gg2 E) v) = v) by exact N.
  rewrite !N, ?N2. assert (EX : gmul1 E (gg1 E) ((uA x * beta + uB x * alpha + uC x) * inv) = uExt inv x) by (cbn; unfold uExt; ring).
  rewrite EX. reflexivity.
Qed.
Lemma setup_exps : g_setup s root gen E cs0 alpha beta gamma delta tau = Done (pkE, g_prepare E vkE).
Proof.
  destruct HU as (NG & ND & NT). unfold g_setup, setup. rewrite Hm, log_n.
  destruct (fft_new F s root gen k) as [ff|] eqn:Hff; [|rewrite (fft_new_ok F two s root gen HC k Hk) in Hff; discriminate]. cbn [obind].
  unfold kinvert, kis0. destruct (keqb_spec F gamma 0) as [?|_]; [contradiction|]. destruct (keqb_spec F delta 0) as [?|_]; [contradiction|].
  rewrite (lag_ok F two s root gen HC k Hk ff Hff tau NT). cbn [obind].
  rewrite !xw_ok by (intros r Hr; rewrite !in_app_iff; tauto). cbn [obind].
  rewrite !eval_exps by (unfold ins, auxs; rewrite map_length, seq_length; reflexivity). cbn [obind].
  assert (EV : mkVk (gA1 E) (gA2 E) (gmul1 E (gg1 E) alpha) (gmul1 E (gg1 E) beta) (gmul2 E (gg2 E) beta) (gmul2 E (gg2 E) gamma)
    (gmul1 E (gg1 E) delta) (gmul2 E (gg2 E) delta) (map (uExt (kinv gamma)) ins) = vkE).
  { unfold vkE. f_equal; cbn; ring. }
  rewrite EV. apply (f_equal Done), f_equal2; [|reflexivity]. unfold pkE. f_equal.
  rewrite powers_tab, firstn_tab by lia. rewrite (tab_map F (fun p => gmul1 E (gg1 E) (p * _))). apply tab_ext. intros i _.
  assert (EN : fft_n ff = n) by (rewrite (ff_eq F two s root gen HC k Hk ff Hff); reflexivity). unfold fft_z. rewrite EN. cbn. ring.
Qed.
End Keys.

(** The prover. *)
Lemma msum_tab (f : nat -> F) N (cs : list F) : msum F (A := fld_grp F) (@kmul F) (tab F f N) cs = sumn (fun i => f i * nth i cs 0) N.
Proof.
  revert f cs. induction N as [|N IH]; intros f cs; [reflexivity|]. rewrite tab_cons, sumn_first. destruct cs as [|c cs].
  - unfold msum. cbn [combine map]. rewrite sumn_0 by (intros i _; cbn [nth]; ring). cbn [nth]. change (@asum (fld_grp F) []) with (0 : F). change (@eq (acar (fld_grp F))) with (@eq (car F)). ring.
  - unfold msum in *. cbn [combine map nth]. change (@asum (fld_grp F) (?a :: ?b)) with (a + @asum (fld_grp F) b). rewrite IH. reflexivity.
Qed.
Lemma map_wires_tab (f : wire -> F) (c : nat -> wire) N : map f (map c (seq 0 N)) = tab F (fun i => f (c i)) N.
Proof. unfold tab. rewrite map_map. reflexivity. Qed.
Lemma msum_app_l (a b : list F) cs : length cs = length a ->
  msum F (A := fld_grp F) (@kmul F) (a ++ b) cs = msum F (A := fld_grp F) (@kmul F) a cs.
Proof.
  revert cs. induction a as [|x a IH]; intros [|c cs] H; try (cbn in H; lia).
  - unfold msum. cbn [app]. destruct b; reflexivity.
  - unfold msum in *. cbn [app combine map]. change (@asum (fld_grp F) (?a :: ?b)) with (a + @asum (fld_grp F) b).
    apply f_equal. apply IH. cbn in H. lia.
Qed.

Section Prove.
Variable cs0 cs : r1cs F.
Hypothesis W0 : wf_cs cs0.
Hypothesis Wc : wf_cs cs.
Hypothesis SC : same_circuit cs0 cs.
Hypothesis Hm : r_m cs0 = n.
Variables alpha beta gamma delta tau : F.
Hypothesis HU : usable n gamma delta tau.
Variables r t : F.
(** The interpolated linear combinations at [tau]. *)
Definition vA : F := sumn (fun i => lagr F s root k tau i * lc (own cs) (nth i (r_a cs) [])) n.
Definition vB : F := sumn (fun i => lagr F s root k tau i * lc (own cs) (nth i (r_b cs) [])) n.
Definition vC : F := sumn (fun i => lagr F s root k tau i * lc (own cs) (nth i (r_c cs) [])) n.
Definition inSum (f : wire -> F) : F := sumn (fun i => f (Inst i) * nth i (r_x cs) 0) (length (r_x cs)).
Definition auxSum (f : wire -> F) : F := sumn (fun i => f (Wit i) * nth i (r_w cs) 0) (length (r_w cs)).
Lemma own_in i : own cs (Inst i) = nth i (r_x cs) 0.
Proof. unfold own. cbn [wire_value]. destruct (Nat.lt_ge_cases i (length (r_x cs))) as [H|H].
  - rewrite (nth_error_nth' _ 0 H). reflexivity.
  - rewrite (proj2 (nth_error_None _ _) H), nth_overflow by exact H. reflexivity.
Qed.
Lemma own_wit i : own cs (Wit i) = nth i (r_w cs) 0.
Proof. unfold own. cbn [wire_value]. destruct (Nat.lt_ge_cases i (length (r_w cs))) as [H|H].
  - rewrite (nth_error_nth' _ 0 H). reflexivity.
  - rewrite (proj2 (nth_error_None _ _) H), nth_overflow by exact H. reflexivity.
Qed.
Lemma split_sum mat : (forall x, In x mat -> In x (r_a cs0 ++ r_b cs0 ++ r_c cs0)) -> length mat = n ->
  inSum (fun x => colval F (lagr F s root k tau) (column x mat)) + auxSum (fun x => colval F (lagr F s root k tau) (column x mat)) =
  sumn (fun i => lagr F s root k tau i * lc (own cs) (nth i mat [])) n.
Proof.
  intros H LN. rewrite <- LN. destruct SC as (_ & _ & _ & _ & LX & LW).
  rewrite <- (transpose_sum F (lagr F s root k tau) (own cs) (length (r_x cs)) (length (r_w cs)) mat).
  - unfold wires, inSum, auxSum. apply f_equal2; apply sumn_ext; intros i _; rewrite ?own_in, ?own_wit; ring.
  - apply Forall_forall. intros x Hx. apply Forall_forall. intros e He. pose proof (range_entries cs0 W0 mat H x e Hx He) as R.
    unfold ok_entry. rewrite <- LX, <- LW. exact R.
Qed.
Lemma sumA : inSum (uA cs0 tau) + auxSum (uA cs0 tau) = vA.
Proof.
  destruct SC as (_ & EA & _). destruct W0 as (LA & _). unfold vA. rewrite <- EA. apply (split_sum (r_a cs0)); [intros x Hx; rewrite !in_app_iff; tauto|congruence].
Qed.
Lemma sumB : inSum (uB cs0 tau) + auxSum (uB cs0 tau) = vB.
Proof.
  destruct SC as (_ & _ & EA & _). destruct W0 as (_ & LA & _). unfold vB. rewrite <- EA. apply (split_sum (r_b cs0)); [intros x Hx; rewrite !in_app_iff; tauto|congruence].
Qed.
Lemma sumC : inSum (uC cs0 tau) + auxSum (uC cs0 tau) = vC.
Proof.
  destruct SC as (_ & _ & _ & EA & _). destruct W0 as (_ & _ & LA & _). unfold vC. rewrite <- EA. apply (split_sum (r_c cs0)); [intros x Hx; rewrite !in_app_iff; tauto|congruence].
Qed.
Hypothesis SAT : is_sat F cs = Some true.
Lemma rows_hold i : (i < n)%nat -> lc (own cs) (nth i (r_a cs) []) * lc (own cs) (nth i (r_b cs) []) = lc (own cs) (nth i (r_c cs) []).
Proof.
  intros Hi. destruct (is_sat_ok F cs Wc) as (b & EB & I). rewrite SAT in EB. injection EB as <-. pose proof (proj1 I eq_refl) as H.
  rewrite Forall_forall in H. destruct SC as (EM & _). destruct Wc as (LA & LB & LC & _).
  assert (IN : In (nth i (r_a cs) [], (nth i (r_b cs) [], nth i (r_c cs) [])) (gates cs)).
  { unfold gates. rewrite <- (combine_nth (r_b cs) (r_c cs) i [] []) by congruence.
    rewrite <- (combine_nth (r_a cs)) by (rewrite combine_length; lia). apply nth_In. rewrite !combine_length. lia. }
  exact (H _ IN).
Qed.
Lemma quotient_ok ff : fft_new F s root gen k = Some ff ->
  exists h, quotient_poly F gen ff (map (lc (own cs)) (r_a cs)) (map (lc (own cs)) (r_b cs)) (map (lc (own cs)) (r_c cs)) = Some (format_degree F h) /\
    (length h <= n - 1)%nat /\ vA * vB - vC = (kpow tau n - 1) * peval h tau.
Proof.
  intros Hff. set (va := map (lc (own cs)) (r_a cs)). set (vb := map (lc (own cs)) (r_b cs)). set (vc := map (lc (own cs)) (r_c cs)).
  assert (NV : forall mat i, nth i (map (lc (own cs)) mat) 0 = lc (own cs) (nth i mat [])).
  { intros mat i. change (0 : F) with (lc (own cs) []) at 1. apply map_nth. }
  destruct (dft_idft_ok F two s root gen HC k Hk ff Hff va) as (pa & Ea & _ & La & Va & _).
  destruct (dft_idft_ok F two s root gen HC k Hk ff Hff vb) as (pb & Eb & _ & Lb & Vb & _).
  destruct (dft_idft_ok F two s root gen HC k Hk ff Hff vc) as (pc & Ec & _ & Lc & Vc & _).
  destruct (quotient F two s root gen HC k Hk pa pb pc La Lb Lc) as (h & Lh & Hh).
  { intros i Hi. rewrite (Va i Hi), (Vb i Hi), (Vc i Hi). unfold va, vb, vc. rewrite !NV. apply rows_hold, Hi. }
  exists h. split; [|split; [exact Lh|]].
  - unfold quotient_poly. rewrite Ea, Eb, Ec.
    rewrite !(coset_dft_ok F two s root gen HC k Hk ff Hff) by assumption.
    unfold divide_by_z_on_coset, z_on_coset.
    assert (EN : fft_n ff = n) by (rewrite (ff_eq F two s root gen HC k Hk ff Hff); reflexivity). rewrite EN.
    unfold kinvert, kis0. destruct (keqb_spec F (kpow gen n - 1) 0) as [Z|NZ].
    + destruct Hgen. apply (proj1 (ksub_eq0 F _ _)) in Z. exact Z.
    + apply (coset_idft_ok F two s root gen HC k Hk ff Hff h); [lia|].
      intros i Hi. rewrite nth_map0 by ring. rewrite points_sub_nth, points_mul_nth, !nth_tab by exact Hi. rewrite Hh.
      assert (WN : kpow (gen * kpow w i) n = kpow gen n).
      { rewrite kpow_mul_l, <- (kpow_mul F w), Nat.mul_comm, kpow_mul. rewrite (wroot_n F s root gen HC k Hk), kpow_1_l. ring. }
      rewrite WN. transitivity (peval h (gen * kpow w i) * (kinv (kpow gen n - 1) * (kpow gen n - 1))); [ring|]. rewrite (kinv_l F _ NZ). ring.
  - rewrite <- Hh. assert (PT : forall p v, idft F ff v = Some p -> peval p tau = sumn (fun j => lagr F s root k tau j * nth j v 0) n).
    { intros p v Hp. rewrite (idft_ok F two s root gen HC k Hk ff Hff) in Hp. injection Hp as <-. rewrite lagr_interp. apply peval_same, trim_same. }
    rewrite (PT pa va Ea), (PT pb vb Eb), (PT pc vc Ec). unfold vA, vB, vC. apply f_equal2; [apply f_equal2|]; apply sumn_ext; intros i _; unfold va, vb, vc; rewrite NV; reflexivity.
Qed.
Definition pA : F := delta * r + alpha + vA.
Definition pB : F := delta * t + beta + vB.
Definition pC : F := delta * r * t + alpha * t + beta * r + vA * t + vB * r +
  ((vA * vB - vC) * kinv delta + auxSum (uExt cs0 alpha beta tau (kinv delta))).
Lemma prove_exps : g_prove s root gen E (pkE cs0 alpha beta gamma delta tau) cs r t = Done (mkProof (gA1 E) (gA2 E) pA pB pC).
Proof.
  destruct HU as (NG & ND & NT). pose proof SC as (EM & EA & EB & EC & LX & LW). unfold g_prove, create_proof. rewrite <- EM, Hm, log_n.
  destruct (fft_new F s root gen k) as [ff|] eqn:Hff; [|rewrite (fft_new_ok F two s root gen HC k Hk) in Hff; discriminate]. cbn [obind].
  rewrite (C29_evaluate F cs Wc). cbn [obind].
  destruct (quotient_ok ff Hff) as (h & -> & Lh & Hh). cbn [obind].
  unfold pkE. cbn [p_vk p_h p_l p_a p_b_g1 p_b_g2 vkE vk_alpha_g1 vk_beta_g1 vk_beta_g2 vk_gamma_g2 vk_delta_g1 vk_delta_g2 vk_ic].
  unfold ins, auxs. rewrite !map_wires_tab, LX, LW.
  assert (TF : forall f g : nat -> F, tail_from (A := gA1 E) (length (r_x cs)) (tab F f (length (r_x cs)) ++ tab F g (length (r_w cs))) = Some (tab F g (length (r_w cs)))).
  { intros f g. unfold tail_from. rewrite app_length, !tab_length. destruct (Nat.leb_spec (length (r_x cs)) (length (r_x cs) + length (r_w cs))); [|lia].
    apply f_equal. rewrite skipn_app, tab_length, Nat.sub_diag. rewrite skipn_all2 by (rewrite tab_length; lia). reflexivity. }
  rewrite !TF. cbn [obind]. change (@tail_from (gA2 E)) with (@tail_from (gA1 E)). rewrite ?TF. cbn [obind].
  change (geq1 E) with (@keqb F). change (geq2 E) with (@keqb F). change (@a0 (gA1 E)) with (0 : F). change (@a0 (gA2 E)) with (0 : F).
  destruct (keqb_spec F delta 0) as [?|_]; [contradiction|]. cbn [orb]. apply (f_equal Done).
  change (@msum F (gA1 E) (gmul1 E)) with (@msum F (fld_grp F) (@kmul F)). change (@msum F (gA2 E) (gmul2 E)) with (@msum F (fld_grp F) (@kmul F)).
  change (gA1 E) with (fld_grp F). change (gA2 E) with (fld_grp F).
  rewrite !msum_app_l by (rewrite tab_length; reflexivity). rewrite !msum_tab.
  fold (inSum (uA cs0 tau)) (inSum (uB cs0 tau)) (auxSum (uA cs0 tau)) (auxSum (uB cs0 tau)) (auxSum (uExt cs0 alpha beta tau (kinv delta))).
  change (@aadd (fld_grp F)) with (@kadd F). change (gmul1 E) with (@kmul F). change (gmul2 E) with (@kmul F). rewrite sumA, sumB.
  assert (Q : sumn (fun i => kpow tau i * ((kpow tau n - 1) * kinv delta) * nth i (format_degree F h) 0) (n - 1) = (vA * vB - vC) * kinv delta).
  { rewrite Hh, (peval_pad F h tau (n - 1) Lh). transitivity (((kpow tau n - 1) * kinv delta) * sumn (fun i => nth i h 0 * kpow tau i) (n - 1)); [|ring].
    rewrite <- sumn_scale. apply sumn_ext. intros i _. rewrite (trim_same F h i). ring. }
  rewrite Q. unfold pA, pB, pC. f_equal; ring.
Qed.
(** Verification. *)
Lemma acc_exps (ic : list F) : forall xs acc, length xs = length ic ->
  fold_left (fun acc '(i, b) => acc + b * i) (combine xs ic) acc = acc + sumn (fun i => nth i ic 0 * nth i xs 0) (length ic).
Proof.
  induction ic as [|b ic IH]; intros [|x xs] acc H; try (cbn in H; lia); [cbn; ring|].
  cbn [combine fold_left length]. rewrite IH by (cbn in H; lia). rewrite sumn_first. cbn [nth]. ring.
Qed.
Lemma x_cons : r_x cs = 1 :: tl (r_x cs).
Proof. destruct Wc as (_ & _ & _ & X & _). destruct (r_x cs) as [|x l]; [discriminate|]. cbn in X. injection X as ->. reflexivity. Qed.
Lemma verify_exps a b c : g_verify E (g_prepare E (vkE cs0 alpha beta gamma delta tau)) (mkProof (gA1 E) (gA2 E) a b c) (tl (r_x cs)) =
  if keqb (a * b + inSum (uExt cs0 alpha beta tau (kinv gamma)) * (- gamma) + c * (- delta)) (alpha * beta) then Done tt else Failed ProofVerificationError.
Proof.
  pose proof SC as (EM & EA & EB & EC & LX & LW). unfold g_verify, verify, g_prepare, prepare, vkE. cbn [pvk_ic pvk_alpha_beta pvk_neg_gamma pvk_neg_delta vk_alpha_g1 vk_beta_g2 vk_gamma_g2 vk_delta_g2 vk_ic pf_a pf_b pf_c].
  unfold ins. rewrite map_wires_tab, LX. rewrite x_cons at 1. cbn [length]. rewrite tab_cons.
  change (gA1 E) with (fld_grp F). change (acar (fld_grp F)) with (car F). rewrite tab_length, Nat.eqb_refl. cbn [negb].
  change (@aadd (fld_grp F)) with (@kadd F). change (gmul1 E) with (@kmul F). rewrite acc_exps by (rewrite tab_length; reflexivity).
  rewrite tab_length.
  assert (EI : uExt cs0 alpha beta tau (kinv gamma) (Inst 0) + sumn (fun i => nth i (tab F (fun i => uExt cs0 alpha beta tau (kinv gamma) (Inst (S i))) (length (tl (r_x cs)))) 0 * nth i (tl (r_x cs)) 0) (length (tl (r_x cs)))
     = inSum (uExt cs0 alpha beta tau (kinv gamma))).
  { unfold inSum. rewrite x_cons. cbn [length tl]. rewrite sumn_first. cbn [nth]. apply f_equal2; [ring|]. apply sumn_ext. intros i Hi. rewrite nth_tab by exact Hi. reflexivity. }
  rewrite EI. reflexivity.
Qed.
Lemma ext_in inv : inSum (uExt cs0 alpha beta tau inv) = (inSum (uA cs0 tau) * beta + inSum (uB cs0 tau) * alpha + inSum (uC cs0 tau)) * inv.
Proof.
  unfold inSum. transitivity (sumn (fun i => (beta * inv) * (uA cs0 tau (Inst i) * nth i (r_x cs) 0) + ((alpha * inv) * (uB cs0 tau (Inst i) * nth i (r_x cs) 0) + inv * (uC cs0 tau (Inst i) * nth i (r_x cs) 0))) (length (r_x cs))).
  - apply sumn_ext. intros i _. unfold uExt. ring.
  - rewrite sumn_add, sumn_add, !sumn_scale. ring.
Qed.
Lemma ext_aux inv : auxSum (uExt cs0 alpha beta tau inv) = (auxSum (uA cs0 tau) * beta + auxSum (uB cs0 tau) * alpha + auxSum (uC cs0 tau)) * inv.
Proof.
  unfold auxSum. transitivity (sumn (fun i => (beta * inv) * (uA cs0 tau (Wit i) * nth i (r_w cs) 0) + ((alpha * inv) * (uB cs0 tau (Wit i) * nth i (r_w cs) 0) + inv * (uC cs0 tau (Wit i) * nth i (r_w cs) 0))) (length (r_w cs))).
  - apply sumn_ext. intros i _. unfold uExt. ring.
  - rewrite sumn_add, sumn_add, !sumn_scale. ring.
Qed.
(** The key algebraic fact, and its form for the closing argument of zero knowledge. *)
Lemma equation_at a b c : a * b + inSum (uExt cs0 alpha beta tau (kinv gamma)) * (- gamma) + c * (- delta) = alpha * beta <->
  c * delta = a * b - alpha * beta - inSum (uExt cs0 alpha beta tau 1).
Proof.
  destruct HU as (NG & ND & NT). rewrite !ext_in. set (I := inSum (uA cs0 tau) * beta + inSum (uB cs0 tau) * alpha + inSum (uC cs0 tau)).
  assert (E1 : I * kinv gamma * - gamma = - I). { transitivity (- (I * (kinv gamma * gamma))); [ring|]. rewrite (kinv_l F gamma NG). ring. }
  rewrite E1. split; intros H.
  - rewrite <- H. ring.
  - transitivity (a * b - I - c * delta); [ring|]. rewrite H. ring.
Qed.
Lemma proof_equation : pC * delta = pA * pB - alpha * beta - inSum (uExt cs0 alpha beta tau 1).
Proof.
  destruct HU as (NG & ND & NT). unfold pC. rewrite ext_in, ext_aux.
  assert (D : kinv delta * delta = 1) by (apply (kinv_l F), ND).
  pose proof sumA as SA. pose proof sumB as SB. pose proof sumC as SCc.
  replace (auxSum (uA cs0 tau)) with (vA - inSum (uA cs0 tau)) by (rewrite <- SA; ring).
  replace (auxSum (uB cs0 tau)) with (vB - inSum (uB cs0 tau)) by (rewrite <- SB; ring).
  replace (auxSum (uC cs0 tau)) with (vC - inSum (uC cs0 tau)) by (rewrite <- SCc; ring).
  unfold pA, pB. ring [D].
Qed.
Lemma complete_exps : exists pk vk pf, g_setup s root gen E cs0 alpha beta gamma delta tau = Done (pk, vk) /\
  g_prove s root gen E pk cs r t = Done pf /\ g_verify E vk pf (tl (r_x cs)) = Done tt.
Proof.
  exists (pkE cs0 alpha beta gamma delta tau), (g_prepare E (vkE cs0 alpha beta gamma delta tau)), (mkProof (gA1 E) (gA2 E) pA pB pC).
  split; [apply (setup_exps cs0 W0 Hm), HU|]. split; [apply prove_exps|]. rewrite verify_exps.
  rewrite (proj2 (equation_at pA pB pC) proof_equation), (keqb_refl F). reflexivity.
Qed.
End Prove.
End Run.
