(** Groth16 (C34-C36, C59). *)
From Coq Require Import ZArith List Bool Lia.
From Verif Require Import LimbModel FieldModel MontProofs FieldProofs Primes FieldMore FieldSpec Algebra GroupLib ExtParams CurveParams PolySpec PolyModel PolyProofs FftProofs FftInverse ClaimsPoly
  R1csModel R1csSpec R1csProofs ClaimsR1cs Groth16Model Groth16Spec Groth16Lift Groth16Proofs Groth16Run Groth16Sound.
Import ListNotations.
Local Open Scope fld_scope.

Section Claims.
Variables (F : Fld) (s : nat) (root gen : F).
Hypothesis HF : fft_field F s root gen.
Add Field cgf : (kth F).
Variable G : groups F.
Hypothesis HG : bilinear_groups G.
Variables (k : nat) (cs0 : r1cs F).
Hypothesis Hk : (1 <= k <= s)%nat.
Hypothesis Hgen : kpow gen (2 ^ k) <> 1.
Hypothesis W0 : wf_cs cs0.
Hypothesis Hm : r_m cs0 = (2 ^ k)%nat.
Notation n := (2 ^ k)%nat.
Notation E := (exps F).

(** Honest keys. *)
Theorem C34_setup_succeeds alpha beta gamma delta tau : usable n gamma delta tau ->
  exists pk vk, g_setup s root gen G cs0 alpha beta gamma delta tau = Done (pk, vk).
Proof.
  intros HU. destruct HF as [two HC]. rewrite (lift_setup F s root gen G HG).
  rewrite (setup_exps F two s root gen HC k Hk cs0 W0 Hm alpha beta gamma delta tau HU). cbn [omap]. eexists. eexists. reflexivity.
Qed.
Theorem C34_setup_rejects alpha beta gamma delta tau : gamma = 0 \/ delta = 0 ->
  g_setup s root gen G cs0 alpha beta gamma delta tau = Failed ProverInversionFailed.
Proof.
  intros H. destruct HF as [two HC]. unfold g_setup, setup. rewrite Hm, (log_n s k Hk).
  rewrite (fft_new_ok F two s root gen HC k Hk). cbn [obind]. unfold kinvert, kis0.
  destruct H as [-> | ->]; rewrite (keqb_refl F); [reflexivity|]. destruct (keqb gamma 0); reflexivity.
Qed.
(** Completeness: keys made for a circuit, a proof made for any satisfied instance of it with any blinding,
    verified against the public inputs. *)
Theorem C34_completeness alpha beta gamma delta tau pk vk cs r t :
  g_setup s root gen G cs0 alpha beta gamma delta tau = Done (pk, vk) -> usable n gamma delta tau ->
  wf_cs cs -> same_circuit cs0 cs -> is_sat F cs = Some true ->
  exists pf, g_prove s root gen G pk cs r t = Done pf /\ g_verify G vk pf (tl (r_x cs)) = Done tt.
Proof.
  intros HS HU Wc SC SAT. destruct HF as [two HC].
  destruct (complete_exps F two s root gen HC k Hk Hgen cs0 cs W0 Wc SC Hm alpha beta gamma delta tau HU r t SAT) as (pk' & vk' & pf' & S' & P' & V').
  rewrite (lift_setup F s root gen G HG), S' in HS. cbn [omap] in HS. injection HS as <- <-. cbn [fst snd].
  exists (mproof F G pf'). rewrite (lift_prove F s root gen G HG), P', (lift_verify F G HG). split; [reflexivity|exact V'].
Qed.

(** Zero knowledge: from the trapdoor and the public inputs alone one can compute, for any [x] and [y], a
    proof with first elements [x] and [y], and every satisfied instance with these public inputs produces
    exactly that proof for exactly one choice of its blinding pair; every blinding pair gives such a proof. *)
Theorem C36_zero_knowledge alpha beta gamma delta tau pk vk xs :
  g_setup s root gen G cs0 alpha beta gamma delta tau = Done (pk, vk) -> usable n gamma delta tau ->
  exists sim : F -> F -> F, forall cs, wf_cs cs -> same_circuit cs0 cs -> is_sat F cs = Some true -> tl (r_x cs) = xs ->
    let proof x y := Done (mkProof _ _ (gmul1 G (gg1 G) x) (gmul2 G (gg2 G) y) (gmul1 G (gg1 G) (sim x y))) in
    (forall x y, exists r t, forall r' t', g_prove s root gen G pk cs r' t' = proof x y <-> r' = r /\ t' = t) /\
    (forall r t, exists x y, g_prove s root gen G pk cs r t = proof x y).
Proof.
  intros HS HU. destruct HF as [two HC].
  rewrite (lift_setup F s root gen G HG), (setup_exps F two s root gen HC k Hk cs0 W0 Hm alpha beta gamma delta tau HU) in HS.
  cbn [omap] in HS. injection HS as <- <-. cbv beta iota delta [fst snd mkeys].
  set (pub := mkR1cs 0 [] [] [] (1 :: xs) [] : r1cs F).
  exists (fun x y => (x * y - alpha * beta - inSum F pub (uExt F s root k cs0 alpha beta tau 1)) * kinv delta).
  intros cs Wc SC SAT HX proof. pose proof HU as (NG & ND & NT). pose proof (kinv_l F delta ND) as DI.
  assert (IS : forall f, inSum F cs f = inSum F pub f).
  { intros f. unfold inSum, pub. cbn [r_x]. rewrite (x_cons F cs Wc), HX. reflexivity. }
  assert (PR : forall r t, g_prove s root gen G (mparams F G (pkE F s root k cs0 alpha beta gamma delta tau)) cs r t =
     proof (pA F s root k cs alpha delta tau r) (pB F s root k cs beta delta tau t)).
  { intros r t. rewrite (lift_prove F s root gen G HG), (prove_exps F two s root gen HC k Hk Hgen cs0 cs W0 Wc SC Hm alpha beta gamma delta tau HU r t SAT).
    cbn [omap]. unfold mproof, proof. cbn [pf_a pf_b pf_c]. apply (f_equal Done). apply f_equal3; [reflexivity|reflexivity|].
    unfold f1. apply f_equal. rewrite <- IS, <- (proof_equation F s root k Hk cs0 cs W0 SC Hm alpha beta gamma delta tau HU r t).
    transitivity (pC F s root k cs0 cs alpha beta delta tau r t * (kinv delta * delta)); [rewrite DI; ring|ring]. }
  split.
  - intros x y. exists ((x - alpha - vA F s root k cs tau) * kinv delta), ((y - beta - vB F s root k cs tau) * kinv delta).
    intros r' t'. rewrite PR. split.
    + intros EQ. unfold proof in EQ. injection EQ as EA EB _. apply (f1_inj F G HG) in EA. apply (f2_inj F G HG) in EB. subst x y.
      unfold pA, pB. split.
      * transitivity (r' * (kinv delta * delta)); [rewrite DI; ring|ring].
      * transitivity (t' * (kinv delta * delta)); [rewrite DI; ring|ring].
    + intros [-> ->]. apply f_equal2; unfold pA, pB; ring [DI].
  - intros r t. eexists. eexists. apply PR.
Qed.

(** Soundness against algebraic provers.  Fixed combinations of the published elements that verify, for
    public inputs [xs], over a grid of toxic waste of the stated size, have a witness: some satisfied
    instance of the circuit has these public inputs. *)
Theorem C59_algebraic_soundness (sA : combination1 F) (sB : combination2 F) (sC : combination1 F) (xs : list F) (As Bs Gs Ds Ts : list F) :
  NoDup As -> NoDup Bs -> NoDup Gs -> NoDup Ds -> NoDup Ts ->
  (2 <= length As)%nat -> (3 <= length Bs)%nat -> (3 <= length Gs)%nat -> (4 <= length Ds)%nat -> (2 * n - 1 <= length Ts)%nat ->
  (forall gamma delta tau, In gamma Gs -> In delta Ds -> In tau Ts -> usable n gamma delta tau) ->
  (forall alpha beta gamma delta tau pk vk, In alpha As -> In beta Bs -> In gamma Gs -> In delta Ds -> In tau Ts ->
     g_setup s root gen G cs0 alpha beta gamma delta tau = Done (pk, vk) ->
     g_verify G vk (mkProof _ _ (combine1 G pk sA) (combine2 G pk sB) (combine1 G pk sC)) xs = Done tt) ->
  exists cs, wf_cs cs /\ same_circuit cs0 cs /\ is_sat F cs = Some true /\ r_x cs = 1 :: xs.
Proof.
  intros NA NB NG ND NT LA LB LG LD LT HU ACC. destruct HF as [two HC].
  assert (L1 : forall pk c, combine1 G (mparams F G pk) c = f1 F G (combine1 E pk c)).
  { intros pk c. assert (LL : forall bs ks, lin F (gmul1 G) (map (f1 F G) bs) ks = f1 F G (lin F (A := fld_grp F) kmul bs ks)) by exact (lift_msum1 F G HG).
    unfold combine1. change (@aadd (gA1 E)) with (@kadd F). rewrite !(f1_add F G HG). unfold mparams, mvk. cbn [p_vk p_h p_l p_a p_b_g1 vk_alpha_g1 vk_beta_g1 vk_delta_g1 vk_ic].
    rewrite !LL. apply f_equal2; [|reflexivity]. rewrite <- (LL [1; vk_alpha_g1 _ _ (p_vk _ _ pk); vk_beta_g1 _ _ (p_vk _ _ pk); vk_delta_g1 _ _ (p_vk _ _ pk)]). cbn [map].
    replace (f1 F G 1) with (gg1 G) by (symmetry; apply (bg_mod1 G HG)). reflexivity. }
  assert (L2 : forall pk c, combine2 G (mparams F G pk) c = f2 F G (combine2 E pk c)).
  { intros pk c. assert (LL : forall bs ks, lin F (gmul2 G) (map (f2 F G) bs) ks = f2 F G (lin F (A := fld_grp F) kmul bs ks)) by exact (lift_msum2 F G HG).
    unfold combine2. change (@aadd (gA2 E)) with (@kadd F). rewrite !(f2_add F G HG). unfold mparams, mvk. cbn [p_vk p_b_g2 vk_beta_g2 vk_gamma_g2 vk_delta_g2].
    rewrite !LL. apply f_equal2; [|reflexivity]. rewrite <- (LL [1; vk_beta_g2 _ _ (p_vk _ _ pk); vk_gamma_g2 _ _ (p_vk _ _ pk); vk_delta_g2 _ _ (p_vk _ _ pk)]). cbn [map].
    replace (f2 F G 1) with (gg2 G) by (symmetry; apply (bg_mod2 G HG)). reflexivity. }
  assert (AE : forall a b g d t, In a As -> In b Bs -> In g Gs -> In d Ds -> In t Ts ->
    g_verify E (g_prepare E (vkE F s root k cs0 a b g d t)) (mkProof (gA1 E) (gA2 E) (combine1 E (pkE F s root k cs0 a b g d t) sA)
      (combine2 E (pkE F s root k cs0 a b g d t) sB) (combine1 E (pkE F s root k cs0 a b g d t) sC)) xs = Done tt).
  { intros a b g d t Ia Ib Ig Id It. pose proof (HU g d t Ig Id It) as HUx.
    rewrite <- (lift_verify F G HG). unfold mproof. cbn [pf_a pf_b pf_c]. rewrite <- !L1, <- L2.
    apply (ACC a b g d t); try assumption.
    rewrite (lift_setup F s root gen G HG), (setup_exps F two s root gen HC k Hk cs0 W0 Hm a b g d t HUx). reflexivity. }
  destruct As as [|a0 As]; [cbn in LA; lia|]. destruct Bs as [|b0 Bs]; [cbn in LB; lia|]. destruct Gs as [|g0 Gs]; [cbn in LG; lia|].
  destruct Ds as [|d0 Ds]; [cbn in LD; lia|]. pose proof (pow2_pos k) as NP. destruct Ts as [|t0 Ts]; [cbn in LT; lia|].
  assert (LX : S (length xs) = length (r_x cs0)).
  { pose proof (AE a0 b0 g0 d0 t0 (or_introl eq_refl) (or_introl eq_refl) (or_introl eq_refl) (or_introl eq_refl) (or_introl eq_refl)) as V.
    unfold g_verify, verify, g_prepare, prepare, vkE, ins in V. cbn [pvk_ic vk_ic] in V. rewrite map_map in V.
    destruct W0 as (_ & _ & _ & X & _). destruct (r_x cs0) as [|x0 rx]; [discriminate|]. cbn [length seq map] in V.
    rewrite map_length, seq_length in V. destruct (Nat.eqb_spec (length xs) (length rx)) as [LL|LL]; [cbn [length]; rewrite LL; reflexivity|discriminate]. }
  exists (extracted F cs0 sC xs). split; [apply (ext_wf F s k Hk cs0 W0 sC xs LX)|]. split; [apply (ext_same F s k Hk cs0 sC xs LX)|]. split; [|reflexivity].
  apply (extracted_sat F two s root gen HC k Hk cs0 W0 Hm sA sB sC xs LX (a0 :: As) (b0 :: Bs) (g0 :: Gs) (d0 :: Ds) (t0 :: Ts)); try assumption.
  - intros I. destruct (HU 0 d0 t0 I (or_introl eq_refl) (or_introl eq_refl)) as (Z & _). apply Z. reflexivity.
  - intros I. destruct (HU g0 0 t0 (or_introl eq_refl) I (or_introl eq_refl)) as (_ & Z & _). apply Z. reflexivity.
  - intros t It. apply (HU g0 d0 t (or_introl eq_refl) (or_introl eq_refl) It).
Qed.
End Claims.

(** The size of the circuit must suit the transform. *)
Theorem C34_size_panics (F : Fld) s root gen (G : groups F) cs alpha beta gamma delta tau pk r t :
  Nat.log2_up (r_m cs) = 0%nat \/ (s < Nat.log2_up (r_m cs))%nat ->
  g_setup s root gen G cs alpha beta gamma delta tau = Panicked /\ g_prove s root gen G pk cs r t = Panicked.
Proof.
  intros H. assert (N : fft_new F s root gen (fft_log (r_m cs)) = None).
  { unfold fft_new, fft_log. destruct (Nat.eqb_spec (Nat.log2_up (r_m cs)) 0); [reflexivity|]. destruct (Nat.ltb_spec s (Nat.log2_up (r_m cs))); [reflexivity|]. destruct H; lia. }
  unfold g_setup, setup, g_prove, create_proof. rewrite N. split; reflexivity.
Qed.

(** ** C35: the verification equation, for every key, proof and input list *)
Theorem C35_verify_iff (F : Fld) (G : groups F) (HG : bilinear_groups G) vk pf xs :
  g_verify G (g_prepare G vk) pf xs = Done tt <->
  length (vk_ic _ _ vk) = S (length xs) /\
  gpair G (pf_a _ _ pf) (pf_b _ _ pf) =
    aadd (gpair G (vk_alpha_g1 _ _ vk) (vk_beta_g2 _ _ vk))
     (aadd (gpair G (asum (map (fun '(b, x) => gmul1 G b x) (combine (vk_ic _ _ vk) (1 :: xs)))) (vk_gamma_g2 _ _ vk))
           (gpair G (pf_c _ _ pf) (vk_delta_g2 _ _ vk))).
Proof.
  unfold g_verify, verify, g_prepare, prepare. cbn [pvk_ic pvk_alpha_beta pvk_neg_gamma pvk_neg_delta].
  destruct (vk_ic _ _ vk) as [|ic0 ic]; [split; [discriminate|intros [H _]; discriminate]|].
  destruct (Nat.eqb_spec (length xs) (length ic)) as [L|L]; cbn [negb].
  2:{ split; [discriminate|]. intros [H _]. cbn [length] in H. lia. }
  assert (AC : forall xs ic acc, length xs = length ic -> fold_left (fun acc '(i, b) => aadd acc (gmul1 G b i)) (combine xs ic) acc =
     aadd acc (asum (map (fun '(b, x) => gmul1 G b x) (combine ic xs)))).
  { clear. induction xs as [|x xs IH]; intros [|b ic] acc H; try (cbn in H; lia); [cbn [combine fold_left map asum]; symmetry; apply (aid_r (gA1 G))|].
    cbn [combine fold_left map asum]. rewrite IH by (cbn in H; lia). rewrite <- (aassoc (gA1 G)). reflexivity. }
  rewrite AC by exact L. cbn [combine map asum]. assert (M1 : gmul1 G ic0 1 = ic0) by apply (bg_mod1 G HG). rewrite M1. change (asum (ic0 :: ?l)) with (aadd ic0 (asum l)).
  set (acc := aadd ic0 _). assert (PN : forall x y, gpair G x (aneg y) = aneg (gpair G x y)).
  { intros x y. apply (hom_neg (gA2 G) (gAT G) (gpair G x)). intros a b. apply (bg_pair_r G HG). }
  rewrite !PN. set (ab := gpair G (pf_a _ _ pf) (pf_b _ _ pf)). set (al := gpair G (vk_alpha_g1 _ _ vk) (vk_beta_g2 _ _ vk)). set (u := gpair G acc _). set (v := gpair G (pf_c _ _ pf) _).
  split.
  - intros H. split; [cbn [length]; rewrite L; reflexivity|]. destruct (geqT G (aadd (aadd ab (aneg u)) (aneg v)) al) eqn:Q; [|discriminate].
    apply (bg_eqT G HG) in Q. rewrite <- Q. rewrite (aassoc (gAT G) (aadd (aadd ab (aneg u)) (aneg v)) u v).
    rewrite <- (aassoc (gAT G) (aadd ab (aneg u)) (aneg v) u), (acomm (gAT G) (aneg v) u), (aassoc (gAT G) _ u (aneg v)).
    rewrite <- (aassoc (gAT G) _ (aneg v) v), (acomm (gAT G) (aneg v) v), (ainv (gAT G) v).
    rewrite <- (aassoc (gAT G) ab (aneg u) u), (acomm (gAT G) (aneg u) u), (ainv (gAT G) u). rewrite !(aid_r (gAT G)). reflexivity.
  - intros [_ EQ]. assert (Q : geqT G (aadd (aadd ab (aneg u)) (aneg v)) al = true); [|rewrite Q; reflexivity].
    apply (bg_eqT G HG). rewrite EQ. rewrite (aassoc (gAT G) al u v). rewrite <- (aassoc (gAT G) (aadd al u) v (aneg u)), (acomm (gAT G) v (aneg u)), (aassoc (gAT G) (aadd al u) (aneg u) v).
    rewrite <- (aassoc (gAT G) al u (aneg u)), (ainv (gAT G) u), (aid_r (gAT G)). rewrite <- (aassoc (gAT G) al v (aneg v)), (ainv (gAT G) v). apply (aid_r (gAT G)).
Qed.
(** What it reports otherwise: a wrong number of inputs, or a failed equation; an empty key panics. *)
Theorem C35_verify_rejects (F : Fld) (G : groups F) vk pf xs : 
  match g_verify G (g_prepare G vk) pf xs with
  | Done tt => length (vk_ic _ _ vk) = S (length xs)
  | Failed (InconsistentPublicInputsLen expected got) => length (vk_ic _ _ vk) = S expected /\ got = length xs /\ expected <> got
  | Failed e => e = ProofVerificationError /\ length (vk_ic _ _ vk) = S (length xs)
  | Panicked => vk_ic _ _ vk = []
  end.
Proof.
  unfold g_verify, verify, g_prepare, prepare. cbn [pvk_ic].
  destruct (vk_ic _ _ vk) as [|ic0 ic]; [reflexivity|].
  destruct (Nat.eqb_spec (length xs) (length ic)) as [L|L]; cbn [negb].
  - destruct (geqT G _ _); [|split; [reflexivity|]]; cbn [length]; rewrite L; reflexivity.
  - split; [reflexivity|]. split; [reflexivity|]. intros Q. apply L. symmetry. exact Q.
Qed.

(** An honest prover without blinding is such an algebraic prover, so the hypotheses of the soundness
    theorem are met by every satisfied instance. *)
Section Honest.
Variables (F : Fld) (s : nat) (root gen : F).
Hypothesis HF : fft_field F s root gen.
Add Field cgf2 : (kth F).
Notation E := (exps F).
Lemma lin_app (f g : nat -> F) N M (x y : list F) : length x = N -> length y = M -> @lin F (fld_grp F) kmul (tab F f N ++ tab F g M) (x ++ y) =
  sumn (fun i => f i * nth i x 0) N + sumn (fun i => g i * nth i y 0) M.
Proof.
  intros LX LY. subst N M. rewrite <- (lin_tab F f), <- (lin_tab F g). unfold lin.
  assert (C : forall (a b x y : list F), length a = length x -> combine (a ++ b) (x ++ y) = combine a x ++ combine b y).
  { clear. induction a as [|a0 a IH]; intros b [|x0 x] y H; try (cbn in H; lia); [reflexivity|]. cbn [app combine]. rewrite IH by (cbn in H; lia). reflexivity. }
  change (list (acar (fld_grp F))) with (list F). rewrite C by apply tab_length. rewrite map_app.
  apply (asum_app (fld_grp F)).
Qed.
Theorem C59_honest_is_algebraic k cs0 cs : (1 <= k <= s)%nat -> wf_cs cs0 -> wf_cs cs -> r_m cs0 = (2 ^ k)%nat -> same_circuit cs0 cs -> is_sat F cs = Some true ->
  exists sA sB sC, forall alpha beta gamma delta tau pk vk, usable (2 ^ k) gamma delta tau ->
    g_setup s root gen E cs0 alpha beta gamma delta tau = Done (pk, vk) ->
    g_verify E vk (mkProof (gA1 E) (gA2 E) (combine1 E pk sA) (combine2 E pk sB) (combine1 E pk sC)) (tl (r_x cs)) = Done tt.
Proof.
  intros Hk W0 Wc Hm SC SAT. destruct HF as [two HC].
  assert (RH : forall i, (i < 2 ^ k)%nat -> lc (own cs) (nth i (r_a cs) []) * lc (own cs) (nth i (r_b cs) []) = lc (own cs) (nth i (r_c cs) [])).
  { exact (rows_hold F s k Hk cs0 cs Wc SC Hm SAT). }
  set (P := fun m => interp F s root k (map (lc (own cs)) m)).
  assert (IL : forall m, (length (P m) <= 2 ^ k)%nat) by (intros m; unfold P, interp; rewrite tab_length; lia).
  assert (NV : forall mat i, nth i (map (lc (own cs)) mat) 0 = lc (own cs) (nth i mat [])).
  { intros mat i. change (0 : F) with (lc (own cs) []) at 1. apply map_nth. }
  destruct (quotient F two s root gen HC k Hk (P (r_a cs)) (P (r_b cs)) (P (r_c cs)) (IL _) (IL _) (IL _)) as (h & Lh & Hh).
  { intros i Hi. unfold P. rewrite !(interp_eval F two s root gen HC k Hk) by exact Hi. rewrite !NV. apply RH, Hi. }
  set (z := r_x cs ++ r_w cs).
  exists (mkC1 F 0 1 0 0 [] [] [] z []), (mkC2 F 0 1 0 0 z), (mkC1 F 0 0 0 0 [] h (r_w cs) [] []).
  intros alpha beta gamma delta tau pk vk HU HS.
  rewrite (setup_exps F two s root gen HC k Hk cs0 W0 Hm alpha beta gamma delta tau HU) in HS. injection HS as <- <-.
  rewrite (verify_exps F s root k Hk cs0 cs Wc SC Hm). rewrite !(comb1_exps F s root k), (comb2_exps F s root k).
  cbn [k_g k_alpha k_beta k_delta k_ic k_h k_l k_a k_b h_g h_beta h_gamma h_delta h_b].
  pose proof SC as (_ & _ & _ & _ & LX & LW). pose proof HU as (NG & ND & NT). pose proof (kinv_l F delta ND) as DI.
  assert (N0 : forall (f : wire -> F) (c : nat -> wire) N, sumn (fun i => f (c i) * nth i [] 0) N = 0).
  { intros f c N. apply sumn_0. intros i _. destruct i; cbn [nth]; ring. }
  assert (Z1 : forall f, inC F cs0 f [] = 0) by (intros f; apply (N0 f Inst)). assert (Z2 : forall f, auxC F cs0 f [] = 0) by (intros f; apply (N0 f Wit)).
  assert (Z3 : hC F k tau [] = 0) by (apply sumn_0; intros i _; destruct i; cbn [nth]; ring).
  assert (Z4 : forall f, allC F cs0 f [] = 0).
  { intros f. unfold allC, lin. destruct (map f (ins F cs0) ++ map f (auxs F cs0)); reflexivity. }
  assert (AL : forall f, allC F cs0 f z = inSum F cs f + auxSum F cs f).
  { intros f. unfold allC, ins, auxs, z. rewrite !map_wires_tab. rewrite lin_app by (symmetry; assumption). unfold inSum, auxSum. rewrite LX, LW. reflexivity. }
  assert (AX : forall f, auxC F cs0 f (r_w cs) = auxSum F cs f) by (intros f; unfold auxC, auxSum; rewrite LW; reflexivity).
  rewrite !Z1, !Z2, Z3, !Z4, !AL, !AX.
  rewrite (sumA F s root k Hk cs0 cs W0 SC Hm tau), (sumB F s root k Hk cs0 cs W0 SC Hm tau).
  assert (VI : forall m, sumn (fun i => lagr F s root k tau i * lc (own cs) (nth i m [])) (2 ^ k) = peval (P m) tau).
  { intros m. unfold P. rewrite <- lagr_interp. apply sumn_ext. intros i _. rewrite NV. reflexivity. }
  assert (HV : vA F s root k cs tau * vB F s root k cs tau - vC F s root k cs tau = hC F k tau h * (kpow tau (2 ^ k) - 1)).
  { unfold vA, vB, vC. rewrite !VI, Hh. unfold hC. rewrite (peval_pad F h tau (2 ^ k - 1) Lh). transitivity ((kpow tau (2 ^ k) - 1) * sumn (fun i => kpow tau i * nth i h 0) (2 ^ k - 1)); [|ring]. apply f_equal. apply sumn_ext. intros i _. ring. }
  match goal with |- (if keqb ?p ?q then _ else _) = _ => assert (EQ : p = q); [|destruct (keqb_spec F p q); [reflexivity|contradiction]] end.
  apply (equation_at F s root k cs0 cs alpha beta gamma delta tau HU). rewrite ext_in.
  rewrite <- HV.
  rewrite <- (sumA F s root k Hk cs0 cs W0 SC Hm tau), <- (sumB F s root k Hk cs0 cs W0 SC Hm tau), <- (sumC F s root k Hk cs0 cs W0 SC Hm tau).
  unfold elemA, elemB. ring [DI].
Qed.
End Honest.

(** ** The scalar field of bn254, and concrete circuits *)
(** Knowledge of a fourth root: private [w0], [w1 = w0^2], public [x1 = w1^2]. *)
Definition wr {F : Fld} (w : wire) : row F := [(w, 1)].
Definition fourth {F : Fld} (v0 v1 pub : F) : r1cs F :=
  mkR1cs 2 [wr (Wit 0); wr (Wit 1)] [wr (Wit 0); wr (Wit 1)] [wr (Wit 1); wr (Inst 1)] [1; pub] [v0; v1].
(** The same with the first gate repeated: three gates. *)
Definition fourth3 {F : Fld} (v0 v1 pub : F) : r1cs F :=
  mkR1cs 3 [wr (Wit 0); wr (Wit 1); wr (Wit 0)] [wr (Wit 0); wr (Wit 1); wr (Wit 0)] [wr (Wit 1); wr (Inst 1); wr (Wit 1)] [1; pub] [v0; v1].
Lemma fourth_wf (F : Fld) (v0 v1 pub : F) : wf_cs (fourth v0 v1 pub) /\ wf_cs (fourth3 v0 v1 pub).
Proof.
  assert (H : forall l : row F, In l [wr (Wit 0); wr (Wit 1); wr (Inst 1)] -> Forall (in_range (fourth v0 v1 pub)) (map fst l)).
  { intros l [<-|[<-|[<-|[]]]]; constructor; [unfold in_range; cbn; lia|constructor|unfold in_range; cbn; lia|constructor|unfold in_range; cbn; lia|constructor]. }
  split; unfold wf_cs; (split; [reflexivity|split; [reflexivity|split; [reflexivity|split; [reflexivity|]]]]);
    apply Forall_forall; intros l Hl; apply H; cbn in Hl; cbn; tauto.
Qed.
Definition toy := fourth (fr_mk 3) (fr_mk 9) (fr_mk 81).
Lemma toy_sat : is_sat FrFld toy = Some true.
Proof. vm_compute; reflexivity. Qed.
(** The claims apply to circuits of [2^k] gates over the scalar field of bn254, [1 <= k <= 28]. *)
Theorem C34_completeness_bn254 (G : groups FrFld) k cs0 alpha beta gamma delta tau cs r t :
  bilinear_groups G -> (1 <= k <= 28)%nat -> wf_cs cs0 -> r_m cs0 = (2 ^ k)%nat -> usable (2 ^ k) gamma delta tau ->
  wf_cs cs -> same_circuit cs0 cs -> is_sat FrFld cs = Some true ->
  exists pk vk pf, g_setup fr_two_adicity fr_root fr_gen G cs0 alpha beta gamma delta tau = Done (pk, vk) /\
    g_prove fr_two_adicity fr_root fr_gen G pk cs r t = Done pf /\ g_verify G vk pf (tl (r_x cs)) = Done tt.
Proof.
  intros HG Hk W0 Hm HU Wc SC SAT. assert (Hgen : kpow fr_gen (2 ^ k) <> 1) by (apply C27_coset_disjoint; unfold fr_two_adicity; lia).
  destruct (C34_setup_succeeds FrFld fr_two_adicity fr_root fr_gen C27_scalar_field G HG k cs0 Hk W0 Hm alpha beta gamma delta tau HU) as (pk & vk & HS).
  destruct (C34_completeness FrFld fr_two_adicity fr_root fr_gen C27_scalar_field G HG k cs0 Hk Hgen W0 Hm alpha beta gamma delta tau pk vk cs r t HS HU Wc SC SAT) as (pf & HP & HV).
  exists pk, vk, pf. split; [exact HS|]. split; [exact HP|exact HV].
Qed.
Lemma toy_usable : usable (2 ^ 1) (fr_mk 5) (fr_mk 7) (fr_mk 11).
Proof.
  split; [apply keqb_neq; vm_compute; reflexivity|]. split; [apply keqb_neq; vm_compute; reflexivity|]. apply keqb_neq; vm_compute; reflexivity.
Qed.
Example C34_case : exists pk vk pf, g_setup fr_two_adicity fr_root fr_gen (exps FrFld) (fourth (fr_mk 0) (fr_mk 0) (fr_mk 0)) (fr_mk 2) (fr_mk 3) (fr_mk 5) (fr_mk 7) (fr_mk 11) = Done (pk, vk) /\
    g_prove fr_two_adicity fr_root fr_gen (exps FrFld) pk toy (fr_mk 13) (fr_mk 17) = Done pf /\ g_verify (exps FrFld) vk pf [fr_mk 81] = Done tt.
Proof.
  apply (C34_completeness_bn254 (exps FrFld) 1 (fourth (fr_mk 0) (fr_mk 0) (fr_mk 0)) (fr_mk 2) (fr_mk 3) (fr_mk 5) (fr_mk 7) (fr_mk 11) toy (fr_mk 13) (fr_mk 17)).
  - apply exps_ok.
  - lia.
  - apply fourth_wf.
  - reflexivity.
  - exact toy_usable.
  - apply fourth_wf.
  - unfold same_circuit. cbn [r_m r_a r_b r_c r_x r_w fourth toy length]. tauto.
  - apply toy_sat.
Qed.
(** With three gates the transform has four points but the key only the first three powers of [tau]:
    an honest proof of a satisfied instance is rejected.  Shown over the integers modulo the group order,
    with the residues of the code's constants. *)
Notation Zr := (ZpFld R_MOD R_MOD_prime).
Definition zr (z : Z) : Zr := zp_mk R_MOD R_MOD_prime z.
Definition zr_root : Zr := zr 0x03ddb9f5166d18b798865ea93dd31f743215cf6dd39329c8d34f1ed960c37c9c.
Definition zr_gen : Zr := zr 7.
Definition toy3 : r1cs Zr := fourth3 (zr 3) (zr 9) (zr 81).
Lemma toy3_sat : is_sat Zr toy3 = Some true.
Proof. vm_compute; reflexivity. Qed.
Lemma toy3_run :
  match g_setup fr_two_adicity zr_root zr_gen (exps Zr) toy3 (zr 2) (zr 3) (zr 5) (zr 7) (zr 11) with
  | Done (pk, vk) => match g_prove fr_two_adicity zr_root zr_gen (exps Zr) pk toy3 (zr 13) (zr 17) with
                     | Done pf => match g_verify (exps Zr) vk pf [zr 81] with Failed ProofVerificationError => true | _ => false end
                     | _ => false end
  | _ => false end = true.
Proof. vm_cast_no_check (eq_refl true). Qed.
Lemma zr_neq (a b : Zr) : keqb a b = false -> a <> b.
Proof. intros H ->. rewrite (keqb_refl Zr) in H. discriminate. Qed.
Theorem C34_other_sizes_refuted : ~ (forall (G : groups Zr) cs alpha beta gamma delta tau r t,
  bilinear_groups G -> wf_cs cs -> (2 <= r_m cs)%nat -> gamma <> 0 -> delta <> 0 -> kpow tau (2 ^ Nat.log2_up (r_m cs)) <> 1 -> is_sat Zr cs = Some true ->
  exists pk vk pf, g_setup fr_two_adicity zr_root zr_gen G cs alpha beta gamma delta tau = Done (pk, vk) /\
    g_prove fr_two_adicity zr_root zr_gen G pk cs r t = Done pf /\ g_verify G vk pf (tl (r_x cs)) = Done tt).
Proof.
  intros H. destruct (H (exps Zr) toy3 (zr 2) (zr 3) (zr 5) (zr 7) (zr 11) (zr 13) (zr 17)) as (pk & vk & pf & HS & HP & HV).
  - apply exps_ok.
  - apply fourth_wf.
  - cbn. lia.
  - apply zr_neq; vm_compute; reflexivity.
  - apply zr_neq; vm_compute; reflexivity.
  - apply zr_neq; vm_compute; reflexivity.
  - apply toy3_sat.
  - pose proof toy3_run as R. rewrite HS in R. rewrite HP in R. change (tl (r_x toy3)) with [zr 81] in HV. rewrite HV in R. discriminate R.
Qed.
(** The same failure in all bilinear groups over this field, for this toxic waste. *)
Theorem C34_three_gates_rejected (G : groups Zr) : bilinear_groups G ->
  wf_cs toy3 /\ is_sat Zr toy3 = Some true /\
  exists pk vk pf, g_setup fr_two_adicity zr_root zr_gen G toy3 (zr 2) (zr 3) (zr 5) (zr 7) (zr 11) = Done (pk, vk) /\
    g_prove fr_two_adicity zr_root zr_gen G pk toy3 (zr 13) (zr 17) = Done pf /\ g_verify G vk pf (tl (r_x toy3)) = Failed ProofVerificationError.
Proof.
  intros HG. split; [apply fourth_wf|]. split; [apply toy3_sat|]. rewrite (lift_setup Zr _ _ _ G HG). pose proof toy3_run as R.
  destruct (g_setup fr_two_adicity zr_root zr_gen (exps Zr) toy3 (zr 2) (zr 3) (zr 5) (zr 7) (zr 11)) as [[pk vk]| |]; [|discriminate R|discriminate R].
  destruct (g_prove fr_two_adicity zr_root zr_gen (exps Zr) pk toy3 (zr 13) (zr 17)) as [pf| |] eqn:HP; [|discriminate R|discriminate R].
  exists (mparams Zr G pk), (mpvk Zr G vk), (mproof Zr G pf). split; [reflexivity|].
  rewrite (lift_prove Zr _ _ _ G HG), HP. split; [reflexivity|]. rewrite (lift_verify Zr G HG). change (tl (r_x toy3)) with [zr 81].
  destruct (g_verify (exps Zr) vk pf [zr 81]) as [|e|]; [discriminate R| |discriminate R]. destruct e; try discriminate R. reflexivity.
Qed.
(** The zero-knowledge and soundness hypotheses are met by the four-root circuit. *)
Example C36_case : exists pk vk, g_setup fr_two_adicity fr_root fr_gen (exps FrFld) (fourth (fr_mk 0) (fr_mk 0) (fr_mk 0)) (fr_mk 2) (fr_mk 3) (fr_mk 5) (fr_mk 7) (fr_mk 11) = Done (pk, vk) /\
  forall v, v = fr_mk 3 \/ v = fr_mk (-3) -> exists cs, wf_cs cs /\ same_circuit (fourth (fr_mk 0) (fr_mk 0) (fr_mk 0)) cs /\ is_sat FrFld cs = Some true /\ tl (r_x cs) = [fr_mk 81] /\ nth_error (r_w cs) 0 = Some v.
Proof.
  destruct (C34_setup_succeeds FrFld fr_two_adicity fr_root fr_gen C27_scalar_field (exps FrFld) (exps_ok FrFld) 1 (fourth (fr_mk 0) (fr_mk 0) (fr_mk 0)) ltac:(unfold fr_two_adicity; lia)
    (proj1 (fourth_wf FrFld _ _ _)) eq_refl (fr_mk 2) (fr_mk 3) (fr_mk 5) (fr_mk 7) (fr_mk 11) toy_usable) as (pk & vk & HS).
  exists pk, vk. split; [exact HS|]. intros v Hv. exists (fourth v (fr_mk 9) (fr_mk 81)). split; [apply fourth_wf|].
  split; [unfold same_circuit; cbn [r_m r_a r_b r_c r_x r_w fourth length]; tauto|].
  split; [destruct Hv as [-> | ->]; vm_compute; reflexivity|]. split; reflexivity.
Qed.
Example C35_case : exists vk pf, g_verify (exps FrFld) (g_prepare (exps FrFld) vk) pf [fr_mk 4] = Done tt /\
  g_verify (exps FrFld) (g_prepare (exps FrFld) vk) pf [fr_mk 5] = Failed ProofVerificationError /\
  g_verify (exps FrFld) (g_prepare (exps FrFld) vk) pf [] = Failed (InconsistentPublicInputsLen 1 0).
Proof.
  exists (mkVk (gA1 (exps FrFld)) (gA2 (exps FrFld)) (fr_mk 2) (fr_mk 3) (fr_mk 3) (fr_mk 5) (fr_mk 7) (fr_mk 7) [fr_mk 1; fr_mk 2]),
    (mkProof (gA1 (exps FrFld)) (gA2 (exps FrFld)) (fr_mk 65) (fr_mk 1) (fr_mk 2)).
  split; [vm_compute; reflexivity|]. split; [vm_compute; reflexivity|]. reflexivity.
Qed.
Example C59_case : exists sA sB sC, forall alpha beta gamma delta tau pk vk, usable (2 ^ 1) gamma delta tau ->
    g_setup fr_two_adicity fr_root fr_gen (exps FrFld) toy alpha beta gamma delta tau = Done (pk, vk) ->
    g_verify (exps FrFld) vk (mkProof (gA1 (exps FrFld)) (gA2 (exps FrFld)) (combine1 (exps FrFld) pk sA) (combine2 (exps FrFld) pk sB) (combine1 (exps FrFld) pk sC)) [fr_mk 81] = Done tt.
Proof.
  apply (C59_honest_is_algebraic FrFld fr_two_adicity fr_root fr_gen C27_scalar_field 1 toy toy).
  - unfold fr_two_adicity. lia.
  - apply fourth_wf.
  - apply fourth_wf.
  - reflexivity.
  - unfold same_circuit. tauto.
  - apply toy_sat.
Qed.
