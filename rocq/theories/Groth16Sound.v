(** An algebraic prover whose proof verifies on a grid of toxic waste has a satisfying assignment in
    its coefficients. *)
From Coq Require Import ZArith List Bool Lia.
From Verif Require Import Algebra GroupLib PolySpec PolyModel PolyProofs FftProofs FftInverse R1csModel R1csSpec R1csProofs ClaimsR1cs Groth16Model Groth16Spec Groth16Lift Groth16Proofs Groth16Run.
Import ListNotations.
Local Open Scope fld_scope.

Section Roots.
Variable F : Fld.
Add Field gsf0 : (kth F).
Lemma roots : forall (xs p : list F), NoDup xs -> (length p <= length xs)%nat -> (forall x, In x xs -> peval p x = 0) -> forall i, nth i p 0 = 0.
Proof.
  induction xs as [|a xs IH]; intros p ND L H i.
  - destruct p; [destruct i; reflexivity|cbn in L; lia].
  - inversion ND as [|? ? NI ND']; subst.
    assert (Q : forall j, nth j (divide F p a) 0 = 0).
    { apply IH; [exact ND'|rewrite divide_tab, tab_length; cbn in L; lia|].
      intros x Hx. pose proof (divide_ok F p a x) as D. rewrite (H x (or_intror Hx)), (H a (or_introl eq_refl)) in D.
      assert (E : (x - a) * peval (divide F p a) x = 0) by (rewrite D; ring). apply (kmul_eq0 F) in E. destruct E as [E|E]; [|exact E].
      apply (proj1 (ksub_eq0 F _ _)) in E. subst x. contradiction. }
    assert (Z : forall x, peval p x = 0).
    { intros x. rewrite (divide_ok F p a x), (H a (or_introl eq_refl)).
      assert (E : peval (divide F p a) x = 0) by (apply sumn_0; intros j _; rewrite Q; ring). rewrite E. ring. }
    (* all values vanish, so do the coefficients: read them off the quotient *)
    assert (C : forall j, (S j < length p)%nat -> peval (skipn (S j) p) a = 0).
    { intros j Hj. specialize (Q j). rewrite divide_tab, nth_tab in Q by lia. exact Q. }
    assert (SK : forall j, (j < length p)%nat -> skipn j p = nth j p 0 :: skipn (S j) p).
    { intros j. clear. revert p. induction j as [|j IH]; intros [|x p] Hj; cbn in Hj; try lia; [reflexivity|]. cbn [skipn nth]. apply IH. lia. }
    destruct (Nat.lt_ge_cases i (length p)) as [Hi|Hi]; [|apply nth_overflow, Hi].
    assert (A : forall j, (j < length p)%nat -> peval (skipn j p) a = 0).
    { intros [|j] Hj; [exact (H a (or_introl eq_refl))|exact (C j Hj)]. }
    pose proof (A i Hi) as Ai. rewrite (SK i Hi), peval_cons in Ai.
    assert (B : peval (skipn (S i) p) a = 0).
    { destruct (Nat.lt_ge_cases (S i) (length p)) as [G|G]; [exact (A _ G)|]. rewrite skipn_all2 by exact G. apply peval_nil. }
    rewrite B in Ai. transitivity (nth i p 0 + a * 0); [ring|exact Ai].
Qed.
Lemma pv2 c0 c1 (x : F) : peval [c0; c1] x = c0 + c1 * x. Proof. rewrite !peval_cons, peval_nil. ring. Qed.
Lemma pv3 c0 c1 c2 (x : F) : peval [c0; c1; c2] x = c0 + c1 * x + c2 * (x * x). Proof. rewrite !peval_cons, peval_nil. ring. Qed.
Lemma pv4 c0 c1 c2 c3 (x : F) : peval [c0; c1; c2; c3] x = c0 + c1 * x + c2 * (x * x) + c3 * (x * x * x). Proof. rewrite !peval_cons, peval_nil. ring. Qed.
Lemma lin_coeffs (xs : list F) c0 c1 : NoDup xs -> (2 <= length xs)%nat -> (forall x, In x xs -> c0 + c1 * x = 0) -> c0 = 0 /\ c1 = 0.
Proof.
  intros N L H. assert (R := roots xs [c0; c1] N L (fun x Hx => eq_trans (pv2 c0 c1 x) (H x Hx))). split; [exact (R 0%nat)|exact (R 1%nat)].
Qed.
Lemma quad_coeffs (xs : list F) c0 c1 c2 : NoDup xs -> (3 <= length xs)%nat -> (forall x, In x xs -> c0 + c1 * x + c2 * (x * x) = 0) -> c0 = 0 /\ c1 = 0 /\ c2 = 0.
Proof.
  intros N L H. assert (R := roots xs [c0; c1; c2] N L (fun x Hx => eq_trans (pv3 c0 c1 c2 x) (H x Hx))).
  split; [exact (R 0%nat)|split; [exact (R 1%nat)|exact (R 2%nat)]].
Qed.
Lemma cub_coeffs (xs : list F) c0 c1 c2 c3 : NoDup xs -> (4 <= length xs)%nat ->
  (forall x, In x xs -> c0 + c1 * x + c2 * (x * x) + c3 * (x * x * x) = 0) -> c0 = 0 /\ c1 = 0 /\ c2 = 0 /\ c3 = 0.
Proof.
  intros N L H. assert (R := roots xs [c0; c1; c2; c3] N L (fun x Hx => eq_trans (pv4 c0 c1 c2 c3 x) (H x Hx))).
  split; [exact (R 0%nat)|split; [exact (R 1%nat)|split; [exact (R 2%nat)|exact (R 3%nat)]]].
Qed.

(** The identity of the two sides in the four trapdoors, at one [tau]. *)
Section Extract.
Variables (As Bs Gs Ds : list F).
Hypothesis (NA : NoDup As) (LA : (2 <= length As)%nat).
Hypothesis (NB : NoDup Bs) (LB : (3 <= length Bs)%nat).
Hypothesis (NG : NoDup Gs) (LG : (3 <= length Gs)%nat) (ZG : ~ In 0 Gs).
Hypothesis (ND : NoDup Ds) (LD : (4 <= length Ds)%nat) (ZD : ~ In 0 Ds).
Variables (Aa Ab Ad PA U1 V1 W1 U2 V2 W2 : F).
Variables (Bb Bg Bd PB : F).
Variables (Ca Cb Cd PC U1' V1' W1' U2' V2' W2' : F).
Variables (Xu Xv Xw : F).
Definition elemA (a b g d : F) : F := Aa * a + Ab * b + Ad * d + PA + (b * U1 + a * V1 + W1) * kinv g + (b * U2 + a * V2 + W2) * kinv d.
Definition elemC (a b g d : F) : F := Ca * a + Cb * b + Cd * d + PC + (b * U1' + a * V1' + W1') * kinv g + (b * U2' + a * V2' + W2') * kinv d.
Definition elemB (b g d : F) : F := Bb * b + Bg * g + Bd * d + PB.
Hypothesis EQ : forall a b g d, In a As -> In b Bs -> In g Gs -> In d Ds ->
  elemC a b g d * d = elemA a b g d * elemB b g d - a * b - (b * Xu + a * Xv + Xw).
Lemma extract : (Xu + U2') * (Xv + V2') = Xw + W2'.
Proof.
  assert (GN : forall g, In g Gs -> g <> 0) by (intros g I ->; contradiction).
  assert (DN : forall d, In d Ds -> d <> 0) by (intros d I ->; contradiction).
  (* clear denominators *)
  assert (E0 : forall b g d, In b Bs -> In g Gs -> In d Ds -> forall a, In a As ->
    ((b * (Ab * (g * d) + U1 * d + U2 * g) + (Ad * (g * d * d) + PA * (g * d) + W1 * d + W2 * g)) * (Bb * b + Bg * g + Bd * d + PB)
      - (b * Xu + Xw) * (g * d) - d * (b * (Cb * (g * d) + U1' * d + U2' * g) + (Cd * (g * d * d) + PC * (g * d) + W1' * d + W2' * g)))
    + ((Aa * (g * d) + V1 * d + V2 * g) * (Bb * b + Bg * g + Bd * d + PB) - b * (g * d) - Xv * (g * d) - d * (Ca * (g * d) + V1' * d + V2' * g)) * a = 0).
  { intros b g d Ib Ig Id a Ia. pose proof (EQ a b g d Ia Ib Ig Id) as H. unfold elemA, elemB, elemC in H.
    pose proof (kinv_l F g (GN g Ig)) as Eg. pose proof (kinv_l F d (DN d Id)) as Ed.
    set (gi := kinv g) in *. set (di := kinv d) in *. clearbody gi di.
    match type of H with ?l = ?r => transitivity ((r - l) * (g * d)) end; [ring [Eg Ed]|rewrite H; ring]. }
  assert (E1 : forall g d, In g Gs -> In d Ds -> forall b, In b Bs ->
    ((Ad * (g * d * d) + PA * (g * d) + W1 * d + W2 * g) * (Bg * g + Bd * d + PB) - Xw * (g * d) - d * (Cd * (g * d * d) + PC * (g * d) + W1' * d + W2' * g))
    + ((Ab * (g * d) + U1 * d + U2 * g) * (Bg * g + Bd * d + PB) + (Ad * (g * d * d) + PA * (g * d) + W1 * d + W2 * g) * Bb - Xu * (g * d) - d * (Cb * (g * d) + U1' * d + U2' * g)) * b
    + ((Ab * (g * d) + U1 * d + U2 * g) * Bb) * (b * b) = 0).
  { intros g d Ig Id b Ib. pose proof (proj1 (lin_coeffs As _ _ NA LA (E0 b g d Ib Ig Id))) as H. etransitivity; [|exact H]. ring. }
  assert (E2 : forall g d, In g Gs -> In d Ds -> forall b, In b Bs ->
    ((Aa * (g * d) + V1 * d + V2 * g) * (Bg * g + Bd * d + PB) - Xv * (g * d) - d * (Ca * (g * d) + V1' * d + V2' * g))
    + ((Aa * (g * d) + V1 * d + V2 * g) * Bb - g * d) * b + 0 * (b * b) = 0).
  { intros g d Ig Id b Ib. pose proof (proj2 (lin_coeffs As _ _ NA LA (E0 b g d Ib Ig Id))) as H. etransitivity; [|exact H]. ring. }
  (* coefficient of a b *)
  assert (F1 : V1 * Bb = 0 /\ Aa * Bb - 1 = 0 /\ V2 * Bb = 0).
  { assert (H : forall d, In d Ds -> d * (V1 * Bb) = 0 /\ (Aa * Bb - 1) * d + V2 * Bb = 0).
    { intros d Id. apply (lin_coeffs Gs); [exact NG|lia|]. intros g Ig.
      pose proof (proj1 (proj2 (quad_coeffs Bs _ _ _ NB LB (E2 g d Ig Id)))) as H. etransitivity; [|exact H]. ring. }
    destruct (lin_coeffs Ds (V2 * Bb) (Aa * Bb - 1) ND ltac:(lia)) as [Z1 Z2].
    { intros d Id. etransitivity; [|exact (proj2 (H d Id))]. ring. }
    destruct (lin_coeffs Ds 0 (V1 * Bb) ND ltac:(lia)) as [_ Z3].
    { intros d Id. etransitivity; [|exact (proj1 (H d Id))]. ring. }
    tauto. }
  destruct F1 as (V1B & AB & V2B). apply (proj1 (ksub_eq0 F _ _)) in AB.
  assert (Bb0 : Bb <> 0) by (intros Z; rewrite Z in AB; apply (k1_neq0 F); etransitivity; [symmetry; exact AB|ring]).
  assert (Aa0 : Aa <> 0) by (intros Z; rewrite Z in AB; apply (k1_neq0 F); etransitivity; [symmetry; exact AB|ring]).
  assert (V1z : V1 = 0) by (apply (kmul_eq0 F) in V1B; tauto). assert (V2z : V2 = 0) by (apply (kmul_eq0 F) in V2B; tauto).
  (* coefficient of a *)
  assert (F2 : Aa * Bg = 0 /\ Aa * PB - Xv - V2' = 0).
  { assert (H : forall d, In d Ds -> (- (d * d) * V1') = 0 /\ (Aa * (d * (Bd * d + PB)) - Xv * d - d * (Ca * d) - d * V2') = 0 /\ Aa * Bg * d = 0).
    { intros d Id. apply (quad_coeffs Gs); [exact NG|lia|]. intros g Ig.
      pose proof (proj1 (quad_coeffs Bs _ _ _ NB LB (E2 g d Ig Id))) as H. rewrite V1z, V2z in H. etransitivity; [|exact H]. ring. }
    destruct (quad_coeffs Ds 0 (Aa * PB - Xv - V2') (Aa * Bd - Ca) ND ltac:(lia)) as (_ & Z2 & _).
    { intros d Id. etransitivity; [|exact (proj1 (proj2 (H d Id)))]. ring. }
    destruct (lin_coeffs Ds 0 (Aa * Bg) ND ltac:(lia)) as [_ Z3].
    { intros d Id. etransitivity; [|exact (proj2 (proj2 (H d Id)))]. ring. }
    tauto. }
  destruct F2 as (ABg & EV). assert (Bgz : Bg = 0) by (apply (kmul_eq0 F) in ABg; tauto).
  (* coefficient of b^2 *)
  assert (F3 : Ab * Bb = 0 /\ U1 * Bb = 0 /\ U2 * Bb = 0).
  { assert (H : forall d, In d Ds -> d * (U1 * Bb) = 0 /\ (Ab * Bb) * d + U2 * Bb = 0).
    { intros d Id. apply (lin_coeffs Gs); [exact NG|lia|]. intros g Ig.
      pose proof (proj2 (proj2 (quad_coeffs Bs _ _ _ NB LB (E1 g d Ig Id)))) as H. etransitivity; [|exact H]. ring. }
    destruct (lin_coeffs Ds (U2 * Bb) (Ab * Bb) ND ltac:(lia)) as [Z1 Z2].
    { intros d Id. etransitivity; [|exact (proj2 (H d Id))]. ring. }
    destruct (lin_coeffs Ds 0 (U1 * Bb) ND ltac:(lia)) as [_ Z3].
    { intros d Id. etransitivity; [|exact (proj1 (H d Id))]. ring. }
    tauto. }
  destruct F3 as (AbB & U1B & U2B).
  assert (Abz : Ab = 0) by (apply (kmul_eq0 F) in AbB; tauto). assert (U1z : U1 = 0) by (apply (kmul_eq0 F) in U1B; tauto).
  assert (U2z : U2 = 0) by (apply (kmul_eq0 F) in U2B; tauto).
  (* coefficient of b *)
  assert (F4 : W1 * Bb = 0 /\ W2 * Bb = 0 /\ PA * Bb - Xu - U2' = 0).
  { assert (H : forall d, In d Ds -> (W1 * Bb * d - U1' * (d * d)) = 0 /\ (W2 * Bb + (PA * Bb - Xu - U2') * d + (Ad * Bb - Cb) * (d * d)) = 0).
    { intros d Id. apply (lin_coeffs Gs); [exact NG|lia|]. intros g Ig.
      pose proof (proj1 (proj2 (quad_coeffs Bs _ _ _ NB LB (E1 g d Ig Id)))) as H. rewrite Abz, U1z, U2z in H. etransitivity; [|exact H]. ring. }
    destruct (quad_coeffs Ds 0 (W1 * Bb) (- U1') ND ltac:(lia)) as (_ & Z2 & _).
    { intros d Id. etransitivity; [|exact (proj1 (H d Id))]. ring. }
    destruct (quad_coeffs Ds (W2 * Bb) (PA * Bb - Xu - U2') (Ad * Bb - Cb) ND ltac:(lia)) as (Z3 & Z4 & _).
    { intros d Id. etransitivity; [|exact (proj2 (H d Id))]. ring. }
    tauto. }
  destruct F4 as (W1B & W2B & EU). assert (W1z : W1 = 0) by (apply (kmul_eq0 F) in W1B; tauto). assert (W2z : W2 = 0) by (apply (kmul_eq0 F) in W2B; tauto).
  (* constant coefficient *)
  assert (F5 : PA * PB - Xw - W2' = 0).
  { assert (H : forall d, In d Ds -> (- W1' * (d * d)) = 0 /\ ((PA * PB - Xw - W2') * d + (Ad * PB + PA * Bd - PC) * (d * d) + (Ad * Bd - Cd) * (d * d * d)) = 0).
    { intros d Id. apply (lin_coeffs Gs); [exact NG|lia|]. intros g Ig.
      pose proof (proj1 (quad_coeffs Bs _ _ _ NB LB (E1 g d Ig Id))) as H. rewrite Bgz, W1z, W2z in H. etransitivity; [|exact H]. ring. }
    apply (cub_coeffs Ds 0 (PA * PB - Xw - W2') (Ad * PB + PA * Bd - PC) (Ad * Bd - Cd) ND LD).
    intros d Id. etransitivity; [|exact (proj2 (H d Id))]. ring. }
  assert (EU' : Xu + U2' = PA * Bb). { transitivity (PA * Bb - (PA * Bb - Xu - U2')); [ring|rewrite EU; ring]. }
  assert (EV' : Xv + V2' = Aa * PB). { transitivity (Aa * PB - (Aa * PB - Xv - V2')); [ring|rewrite EV; ring]. }
  assert (EW' : Xw + W2' = PA * PB). { transitivity (PA * PB - (PA * PB - Xw - W2')); [ring|rewrite F5; ring]. }
  rewrite EU', EV', EW'. transitivity (PA * PB * (Aa * Bb)); [ring|]. rewrite AB. ring.
Qed.
End Extract.
End Roots.

Section Sound.
Variable F : Fld.
Add Field gsf1 : (kth F).
Hypothesis two : (1 + 1 : F) <> 0.
Variables (s : nat) (root gen : F).
Hypothesis HC : fft_consts F s root gen.
Variable k : nat.
Hypothesis Hk : (1 <= k <= s)%nat.
Local Notation E := (exps F).
Local Notation n := (2 ^ k)%nat.
Notation w := (wroot F s root k).
Variable cs0 : r1cs F.
Hypothesis W0 : wf_cs cs0.
Hypothesis Hm : r_m cs0 = n.
Variables (sA : combination1 F) (sB : combination2 F) (sC : combination1 F) (xs : list F).

Notation UA := (uA F s root k cs0).
Notation UB := (uB F s root k cs0).
Notation UC := (uC F s root k cs0).
Notation nx := (length (r_x cs0)).
Notation nw := (length (r_w cs0)).
Definition inC (f : wire -> F) (c : list F) : F := sumn (fun i => f (Inst i) * nth i c 0) nx.
Definition auxC (f : wire -> F) (c : list F) : F := sumn (fun i => f (Wit i) * nth i c 0) nw.
Definition hC (tau : F) (c : list F) : F := sumn (fun i => kpow tau i * nth i c 0) (n - 1).
Definition allC (f : wire -> F) (c : list F) : F := @lin F (fld_grp F) kmul (map f (ins F cs0) ++ map f (auxs F cs0)) c.
Lemma lin_tab f N c : @lin F (fld_grp F) kmul (tab F f N) c = sumn (fun i => f i * nth i c 0) N.
Proof. exact (msum_tab F f N c). Qed.
Lemma lin_ext alpha beta tau inv (wi : nat -> wire) N c : @lin F (fld_grp F) kmul (map (uExt F s root k cs0 alpha beta tau inv) (map wi (seq 0 N))) c =
  (beta * sumn (fun i => UA tau (wi i) * nth i c 0) N + alpha * sumn (fun i => UB tau (wi i) * nth i c 0) N + sumn (fun i => UC tau (wi i) * nth i c 0) N) * inv.
Proof.
  rewrite map_wires_tab, lin_tab.
  transitivity (sumn (fun i => (beta * inv) * (UA tau (wi i) * nth i c 0) + ((alpha * inv) * (UB tau (wi i) * nth i c 0) + inv * (UC tau (wi i) * nth i c 0))) N).
  - apply sumn_ext. intros i _. unfold uExt. ring.
  - rewrite sumn_add, sumn_add, !sumn_scale. match goal with |- @eq _ ?a ?b => change (@eq (car F) a b) end. ring.
Qed.
Lemma comb1_exps alpha beta gamma delta tau (c : combination1 F) : combine1 E (pkE F s root k cs0 alpha beta gamma delta tau) c =
  elemA F (k_alpha c) (k_beta c) (k_delta c) (k_g c + allC (UA tau) (k_a c) + allC (UB tau) (k_b c))
    (inC (UA tau) (k_ic c)) (inC (UB tau) (k_ic c)) (inC (UC tau) (k_ic c))
    (auxC (UA tau) (k_l c)) (auxC (UB tau) (k_l c)) (auxC (UC tau) (k_l c) + hC tau (k_h c) * (kpow tau n - 1)) alpha beta gamma delta.
Proof.
  unfold combine1, pkE, vkE. cbn [p_vk p_h p_l p_a p_b_g1 vk_alpha_g1 vk_beta_g1 vk_delta_g1 vk_ic].
  change (gA1 E) with (fld_grp F). change (gmul1 E) with (@kmul F). change (@aadd (fld_grp F)) with (@kadd F).
  fold (allC (UA tau) (k_a c)) (allC (UB tau) (k_b c)). unfold ins, auxs. rewrite !lin_ext.
  fold (inC (UA tau) (k_ic c)) (inC (UB tau) (k_ic c)) (inC (UC tau) (k_ic c)) (auxC (UA tau) (k_l c)) (auxC (UB tau) (k_l c)) (auxC (UC tau) (k_l c)).
  assert (H : @lin F (fld_grp F) kmul (tab F (fun i => kpow tau i * ((kpow tau n - 1) * kinv delta)) (n - 1)) (k_h c) = hC tau (k_h c) * (kpow tau n - 1) * kinv delta).
  { rewrite lin_tab. unfold hC. transitivity (((kpow tau n - 1) * kinv delta) * sumn (fun i => kpow tau i * nth i (k_h c) 0) (n - 1)); [|match goal with |- @eq _ ?a ?b => change (@eq (car F) a b) end; ring].
    rewrite <- sumn_scale. apply sumn_ext. intros i _. ring. }
  rewrite H. unfold lin. cbn [combine map]. change (gg1 E) with (1 : F). change (@asum (fld_grp F) [?a; ?b; ?c; ?d]) with (a + (b + (c + (d + 0)))).
  unfold elemA. match goal with |- @eq _ ?a ?b => change (@eq (car F) a b) end. ring.
Qed.
Lemma comb2_exps alpha beta gamma delta tau (c : combination2 F) : combine2 E (pkE F s root k cs0 alpha beta gamma delta tau) c =
  elemB F (h_beta c) (h_gamma c) (h_delta c) (h_g c + allC (UB tau) (h_b c)) beta gamma delta.
Proof.
  unfold combine2, pkE, vkE. cbn [p_vk p_b_g2 vk_beta_g2 vk_gamma_g2 vk_delta_g2].
  change (gA2 E) with (fld_grp F). change (gmul2 E) with (@kmul F). change (@aadd (fld_grp F)) with (@kadd F).
  fold (allC (UB tau) (h_b c)). unfold lin. cbn [combine map]. change (gg2 E) with (1 : F). change (@asum (fld_grp F) [?a; ?b; ?c; ?d]) with (a + (b + (c + (d + 0)))).
  unfold elemB. match goal with |- @eq _ ?a ?b => change (@eq (car F) a b) end. ring.
Qed.

(** The extracted assignment. *)
Definition extracted : r1cs F := mkR1cs (r_m cs0) (r_a cs0) (r_b cs0) (r_c cs0) (1 :: xs) (tab F (fun i => nth i (k_l sC) 0) nw).
Hypothesis LX : S (length xs) = nx.
Lemma ext_same : same_circuit cs0 extracted.
Proof. unfold same_circuit, extracted. cbn [r_m r_a r_b r_c r_x r_w]. rewrite tab_length. cbn [length]. rewrite LX. tauto. Qed.
Lemma ext_wf : wf_cs extracted.
Proof.
  destruct W0 as (A & B & C & X & R). unfold wf_cs, extracted. cbn [r_m r_a r_b r_c r_x r_w].
  split; [exact A|split; [exact B|split; [exact C|split; [reflexivity|]]]].
  eapply Forall_impl; [|exact R]. intros r Hr. eapply Forall_impl; [|exact Hr]. intros [j|j]; unfold in_range; cbn [r_x r_w length]; rewrite ?tab_length, ?LX; tauto.
Qed.
Variables (As Bs Gs Ds Ts : list F).
Hypothesis (NA : NoDup As) (LA : (2 <= length As)%nat).
Hypothesis (NB : NoDup Bs) (LB : (3 <= length Bs)%nat).
Hypothesis (NG : NoDup Gs) (LG : (3 <= length Gs)%nat) (ZG : ~ In 0 Gs).
Hypothesis (ND : NoDup Ds) (LD : (4 <= length Ds)%nat) (ZD : ~ In 0 Ds).
Hypothesis (NT : NoDup Ts) (LT : (2 * n - 1 <= length Ts)%nat) (ZT : forall t, In t Ts -> kpow t n <> 1).
Hypothesis ACC : forall a b g d t, In a As -> In b Bs -> In g Gs -> In d Ds -> In t Ts ->
  g_verify E (g_prepare E (vkE F s root k cs0 a b g d t)) (mkProof (gA1 E) (gA2 E) (combine1 E (pkE F s root k cs0 a b g d t) sA)
    (combine2 E (pkE F s root k cs0 a b g d t) sB) (combine1 E (pkE F s root k cs0 a b g d t) sC)) xs = Done tt.
Lemma aux_ext f : auxSum F extracted f = auxC f (k_l sC).
Proof. unfold auxSum, auxC, extracted. cbn [r_w]. rewrite tab_length. apply sumn_ext. intros i Hi. rewrite nth_tab by exact Hi. reflexivity. Qed.
Lemma identity t : In t Ts -> vA F s root k extracted t * vB F s root k extracted t = vC F s root k extracted t + hC t (k_h sC) * (kpow t n - 1).
Proof.
  intros It. pose proof ext_same as SC. pose proof ext_wf as WX.
  rewrite <- (sumA F s root k Hk cs0 extracted W0 SC Hm t), <- (sumB F s root k Hk cs0 extracted W0 SC Hm t), <- (sumC F s root k Hk cs0 extracted W0 SC Hm t).
  rewrite !aux_ext.
  transitivity (inSum F extracted (UC t) + (auxC (UC t) (k_l sC) + hC t (k_h sC) * (kpow t n - 1))); [|ring].
  eapply (extract F As Bs Gs Ds NA LA NB LB NG LG ZG ND LD ZD).
  intros a b g d Ia Ib Ig Id. assert (HU : usable n g d t).
  { split; [intros ->; contradiction|split; [intros ->; contradiction|apply ZT, It]]. }
  pose proof (ACC a b g d t Ia Ib Ig Id It) as V. change xs with (tl (r_x extracted)) in V.
  rewrite (verify_exps F s root k Hk cs0 extracted WX SC Hm) in V.
  match type of V with (if keqb ?p ?q then _ else _) = _ => destruct (keqb_spec F p q) as [EQ|]; [|discriminate] end.
  apply (equation_at F s root k cs0 extracted a b g d t HU) in EQ.
  rewrite ext_in, !comb1_exps, comb2_exps in EQ.
  match type of EQ with _ = _ - (?u * b + ?v * a + ?w) * 1 => replace ((u * b + v * a + w) * 1) with (b * u + a * v + w) in EQ by ring end.
  exact EQ.
Qed.
Definition rowvals (m : list (row F)) : list F := map (lc (own extracted)) m.
Definition pos p := (interp F s root k (rowvals p)).
Lemma interp_len v : length (interp F s root k v) = n.
Proof. unfold interp. apply tab_length. Qed.
Lemma v_interp t m : sumn (fun i => lagr F s root k t i * lc (own extracted) (nth i m [])) n = peval (pos m) t.
Proof.
  unfold pos. rewrite <- lagr_interp. apply sumn_ext. intros i _. unfold rowvals. f_equal. change (0 : F) with (lc (own extracted) []) at 1. symmetry. apply map_nth.
Qed.
Lemma rows_of_identity i : (i < n)%nat -> lc (own extracted) (nth i (r_a cs0) []) * lc (own extracted) (nth i (r_b cs0) []) = lc (own extracted) (nth i (r_c cs0) []).
Proof.
  intros Hi. set (h := tab F (fun i => nth i (k_h sC) 0) (n - 1)). pose proof (pow2_pos k) as NP.
  set (P := padd F (pmul F (pos (r_a cs0)) (pos (r_b cs0))) (map (kmul (- (1))) (padd F (pos (r_c cs0)) (padd F (map (kmul (- (1))) h) (repeat 0 n ++ h))))).
  assert (EH : forall t, peval h t = hC t (k_h sC)).
  { intros t. unfold h, hC. rewrite peval_tab. apply sumn_ext. intros j _. ring. }
  assert (ER : forall t, peval (repeat (0 : F) n) t = 0).
  { intros t. apply sumn_0. intros j _. assert (Z : forall m j, nth j (repeat (0 : F) m) 0 = 0) by (induction m; destruct j0; cbn; auto). rewrite Z. ring. }
  assert (EP : forall t, peval P t = peval (pos (r_a cs0)) t * peval (pos (r_b cs0)) t - peval (pos (r_c cs0)) t - peval h t * (kpow t n - 1)).
  { intros t. unfold P. rewrite padd_eval, pmul_eval, map_eval, padd_eval, padd_eval, map_eval, peval_app, ER, repeat_length. ring. }
  assert (LP : (length P <= length Ts)%nat).
  { unfold P. rewrite padd_length, map_length, padd_length, padd_length, map_length, app_length, repeat_length.
    pose proof (pmul_length F s k Hk (pos (r_a cs0)) (pos (r_b cs0))) as LM. unfold pos in *. rewrite !interp_len in *. unfold h. rewrite tab_length. lia. }
  assert (Z : forall t, peval P t = 0).
  { intros t. apply sumn_0. intros j _. assert (C : nth j P 0 = 0); [|rewrite C; ring]. apply (roots F Ts P NT LP). intros x Hx. rewrite EP, EH.
    pose proof (identity x Hx) as I. unfold vA, vB, vC in I. change (r_a extracted) with (r_a cs0) in I. change (r_b extracted) with (r_b cs0) in I. change (r_c extracted) with (r_c cs0) in I.
    rewrite !v_interp in I. rewrite I. ring. }
  specialize (Z (kpow w i)). rewrite EP in Z.
  assert (WN : kpow (kpow w i) n = 1).
  { rewrite <- (kpow_mul F w), Nat.mul_comm, kpow_mul. rewrite (wroot_n F s root gen HC k Hk), kpow_1_l. reflexivity. }
  rewrite WN in Z. unfold pos in Z. rewrite !(interp_eval F two s root gen HC k Hk) in Z by exact Hi.
  assert (NV : forall m, nth i (rowvals m) 0 = lc (own extracted) (nth i m [])).
  { intros m. unfold rowvals. change (0 : F) with (lc (own extracted) []) at 1. apply map_nth. }
  rewrite !NV in Z. apply (proj1 (ksub_eq0 F _ _)). etransitivity; [|exact Z]. ring.
Qed.
Lemma extracted_sat : is_sat F extracted = Some true.
Proof.
  destruct (is_sat_ok F extracted ext_wf) as (b & -> & I). apply (f_equal Some). apply I. apply Forall_forall. intros [x [y z]] Hin.
  destruct W0 as (LRA & LRB & LRC & _). apply (In_nth _ _ ([], ([], []))) in Hin. destruct Hin as (i & Hi & Ei).
  unfold gates in Hi, Ei. cbn [r_a r_b r_c extracted] in Hi, Ei. rewrite !combine_length in Hi.
  rewrite LRA, LRB, LRC, Hm, !Nat.min_id in Hi.
  assert (L2 : length (r_b cs0) = length (r_c cs0)) by congruence.
  assert (L1 : length (r_a cs0) = length (combine (r_b cs0) (r_c cs0))) by (rewrite combine_length, LRB, LRC, Nat.min_id; exact LRA).
  rewrite (combine_nth _ _ _ _ _ L1), (combine_nth _ _ _ _ _ L2) in Ei.
  assert (Hn : (i < n)%nat) by exact Hi. pose proof (rows_of_identity i Hn) as R. injection Ei as <- <- <-. exact R.
Qed.
End Sound.
