(** C42, C43, C44: incrementally verifiable computation, and the transcript inside circuits. *)
From Coq Require Import ZArith List Bool Lia Field.
From Verif Require Import ClaimsNova FieldSpec FieldMore Algebra GroupLib CurveSpec CurveParams CircuitFields ExtParams R1csModel R1csSpec R1csProofs GadgetProofs RangeProofs R1csShape ForgeProofs HonestRun NovaModel NovaSpec NovaProofs NovaFields
  BigNatModel LimbVec BigNatRun BigNatForge AugmentedModel IvcModel IvcSpec AugShape AugRun IvcProofs.
Import ListNotations.
Local Open Scope fld_scope.

(** ** C44: MiMC *)
Section Transcript.
Variables (B S : pfield) (q p : Z).
Hypothesis OB : field_ok B q.
Hypothesis OS : field_ok S p.
Add Field clivc : (kth B).
Let CF := fo_cf _ _ OB.
Implicit Types (cs : r1cs B).
Notation to_bits := (fa_to_bits B (pf_bits B) (pf_pow2 B) (pf_modulus B) (pf_nbits B)).

Lemma mimc_round_ok (HON : Prop) cs xl xr (c : B) : wf_cs cs -> row_ok cs xl -> row_ok cs xr ->
  computes HON cs (mimc_round_g B (xl, xr) c) (fun cs' st => row_ok cs' (fst st) /\ row_ok cs' (snd st))
    (fun s st => (lc s (fst st), lc s (snd st)) = mimc_round (lc s xl, lc s xr) c).
Proof.
  intros W HL HR. unfold mimc_round_g, fa_square.
  eapply computes_bind; [apply mul_ok; [exact W|rok|rok]|]. intros s1 cs1 n1 W1 G1 O1 _. lift G1.
  eapply computes_bind; [apply mul_ok; [exact W1|rok|rok]|]. intros s2 cs2 n2 W2 G2 O2 _. lift G2.
  eapply computes_bind; [apply mul_ok; [exact W2|rok|rok]|]. intros s3 cs3 n3 W3 G3 O3 _. lift G3.
  eapply computes_bind; [apply mul_ok; [exact W3|rok|rok]|]. intros s4 cs4 n4 W4 G4 O4 _. lift G4.
  apply computes_ret; [exact W4|cbn [fst snd]; split; rok|]. intros s SO E4 E3 E2 E1. cbn [fst snd mimc_round].
  lcs. rewrite E4, E3, E2, E1. lcs. apply f_equal2; [ring|reflexivity].
Qed.
Lemma mimc_rounds_ok (HON : Prop) (l : list B) : forall cs xl xr, wf_cs cs -> row_ok cs xl -> row_ok cs xr ->
  computes HON cs (fold_g (mimc_round_g B) (xl, xr) l) (fun cs' st => row_ok cs' (fst st)) (fun s st => lc s (fst st) = fst (fold_left mimc_round l (lc s xl, lc s xr))).
Proof.
  induction l as [|c l IH]; intros cs xl xr W HL HR; cbn [fold_g fold_left].
  - apply computes_ret; [exact W|exact HL|]. intros s _. reflexivity.
  - eapply computes_bind; [apply mimc_round_ok; assumption|]. intros [yl yr] cs1 n1 W1 G1 [O1 O2] _. cbn [fst snd] in O1, O2.
    eapply computes_weaken; [apply (IH cs1 yl yr W1 O1 O2)|auto|]. cbv beta. intros s st _ E E1. cbn [fst snd] in E1. rewrite <- E1. exact E.
Qed.
Lemma mimc_ok (HON : Prop) cs xl xr : wf_cs cs -> row_ok cs xl -> row_ok cs xr ->
  computes HON cs (mimc_g B xl xr) (fun cs' h => row_ok cs' h) (fun s h => lc s h = mimc_hash (pf_consts B) (lc s xl) (lc s xr)).
Proof.
  intros W HL HR. unfold mimc_g, mimc_hash. eapply computes_bind; [apply mimc_rounds_ok; assumption|]. intros st cs1 n1 W1 G1 O1 _.
  apply computes_ret; [exact W1|exact O1|]. intros s _ E. exact E.
Qed.
Lemma absorb_ok (HON : Prop) st : forall cs, wf_cs cs -> Forall (row_ok cs) st ->
  computes HON cs (mimc_absorb_g B st) (fun cs' h => row_ok cs' h) (fun s h => lc s h = mimc_absorb (pf_consts B) (map (lc s) st)).
Proof.
  assert (A : forall st cs acc, wf_cs cs -> Forall (row_ok cs) st -> row_ok cs acc ->
    computes HON cs (fold_g (fun acc scalar => bind (mimc_g B scalar acc) (fun h => ret (fa_plus B (fa_plus B acc scalar) h))) acc st) (fun cs' h => row_ok cs' h)
      (fun s h => lc s h = fold_left (fun a v => a + v + mimc_hash (pf_consts B) v a) (map (lc s) st) (lc s acc))).
  { clear st. induction st as [|r st IH]; intros cs acc W HS HA; cbn [fold_g fold_left map].
    - apply computes_ret; [exact W|exact HA|]. intros s _. reflexivity.
    - inversion HS as [|? ? HR HS']; subst.
      eapply (computes_bind B HON cs _ _ (fun cs' a => row_ok cs' a) (fun s a => lc s a = lc s acc + lc s r + mimc_hash (pf_consts B) (lc s r) (lc s acc))).
      + eapply computes_bind; [apply mimc_ok; assumption|]. intros h cs1 n1 W1 G1 O1 _. lift G1. apply computes_ret; [exact W1|rok|]. intros s SO E. lcs. rewrite E. reflexivity.
      + intros acc' cs1 n1 W1 G1 O1 _. eapply computes_weaken; [apply (IH cs1 acc' W1); [|exact O1]|auto|].
        * eapply Forall_impl; [|exact HS']. intros r' H'. exact (grow_ok _ _ _ _ _ G1 H').
        * cbv beta. intros s h _ E E1. rewrite <- E1. exact E. }
  intros cs W HS. unfold mimc_absorb_g, mimc_absorb. eapply computes_weaken; [apply (A st cs _ W HS); apply ok_constant, W|auto|]. cbv beta. intros s h SO E. rewrite (lc_constant B s 0 SO) in E. exact E.
Qed.

(** In the prover's values the circuit's MiMC is the native one ... *)
Theorem C44_hash_agrees cs xl xr u v : wf_cs cs -> stands_for cs xl u -> stands_for cs xr v ->
  complete_at cs (mimc_g B xl xr) (fun cs' h => stands_for cs' h (mimc_hash (pf_consts B) u v)).
Proof. intros W HL HR. apply (runs_complete B cs _ _ W). exact (run_mimc B cs xl xr u v W HL HR). Qed.
Theorem C44_absorb_agrees cs st vs : wf_cs cs -> Forall2 (stands_for cs) st vs ->
  complete_at cs (mimc_absorb_g B st) (fun cs' h => stands_for cs' h (mimc_absorb (pf_consts B) vs)).
Proof. intros W H. apply (runs_complete B cs _ _ W). exact (run_absorb B cs st vs W H). Qed.
(** ... and whatever the assignment, if the gates hold. *)
Theorem C44_hash_enforced cs xl xr : wf_cs cs -> row_ok cs xl -> row_ok cs xr ->
  sound_at cs (mimc_g B xl xr) (fun s h => lc s h = mimc_hash (pf_consts B) (lc s xl) (lc s xr)).
Proof. intros W HL HR. exact (computes_sound B False cs _ _ _ (mimc_ok False cs xl xr W HL HR)). Qed.
Theorem C44_absorb_enforced cs st : wf_cs cs -> Forall (row_ok cs) st ->
  sound_at cs (mimc_absorb_g B st) (fun s h => lc s h = mimc_absorb (pf_consts B) (map (lc s) st)).
Proof. intros W HS. exact (computes_sound B False cs _ _ _ (absorb_ok False st cs W HS)). Qed.
(** Natively [squeeze] returns the low bits of the hash as an element of the other field; the circuit's
    returns the same number. *)
Theorem C44_squeeze_low_bits (vs : list B) n : (n <= 253)%nat -> pf_val S (squeeze B S vs n) = (pf_val B (mimc_absorb (pf_consts B) vs) mod 2 ^ Z.of_nat n)%Z.
Proof.
  intros HN. rewrite (squeeze_val B S q p OB OS). apply Z.mod_small. pose proof (cf_p _ _ _ _ _ _ _ (fo_cf _ _ OS)). assert (2 ^ Z.of_nat n <= 2 ^ 253)%Z by (apply Z.pow_le_mono_r; lia).
  pose proof (Z.mod_pos_bound (pf_val B (mimc_absorb (pf_consts B) vs)) (2 ^ Z.of_nat n) ltac:(apply Z.pow_pos_nonneg; lia)). lia.
Qed.
Theorem C44_squeeze_agrees cs st vs n : wf_cs cs -> Forall2 (stands_for cs) st vs -> (1 <= n <= 253)%nat ->
  complete_at cs (squeeze_g B st n) (fun cs' r => exists v, stands_for cs' r v /\ pf_val B v = pf_val S (squeeze B S vs n)).
Proof.
  intros W H HN. apply (runs_complete B cs _ _ W). eapply runs_weaken; [exact (run_squeeze B q OB cs st vs n W H HN)|]. cbv beta. intros cs' r _ _ K. eexists. split; [exact K|].
  rewrite C44_squeeze_low_bits by lia. rewrite (fo_of _ _ OB). apply Z.mod_small. pose proof (cf_p _ _ _ _ _ _ _ CF). assert (2 ^ Z.of_nat n <= 2 ^ 253)%Z by (apply Z.pow_le_mono_r; lia).
  pose proof (Z.mod_pos_bound (pf_val B (mimc_absorb (pf_consts B) vs)) (2 ^ Z.of_nat n) ltac:(apply Z.pow_pos_nonneg; lia)). lia.
Qed.

(** But the truncation is not enforced: every satisfying assignment extends to one where [squeeze] returns
    any chosen number of that many bits. *)
Definition squeeze_adv (chosen : list bool) (state : list (row B)) (num_bits : nat) : G B (row B) :=
  bind (mimc_absorb_g B state) (fun hash => bind (to_bits_adv B (pf_bits B) (pf_pow2 B) (pf_modulus B) (pf_nbits B) chosen hash num_bits) (fun bits =>
  bind (fold_g (fun '(val, mult) bit => bind (fa_conditional_select B (fa_plus B val mult) val bit) (fun val => ret (val, fa_plus B mult mult)))
         (fa_constant B 0, fa_constant B 1) (firstn num_bits (rev bits))) (fun r => ret (fst r)))).
Lemma sh_squeeze chosen st n : length chosen = 256%nat -> shape2 B (squeeze_g B st n) (squeeze_adv chosen st n).
Proof.
  intros L. unfold squeeze_g, squeeze_adv. apply sh_bind.
  { unfold mimc_absorb_g. apply sh_fold. intros acc v. apply sh_bind; [|intros h; apply sh_ret]. unfold mimc_g. apply sh_bind; [|intros r; apply sh_ret]. apply sh_fold. intros [xl xr] c.
    unfold mimc_round_g, fa_square. do 4 (apply sh_bind; [apply sh_mul|]; intros ?). apply sh_ret. }
  intros h. apply sh_bind; [apply sh_to_bits; intros v; rewrite L; apply (cf_len _ _ _ _ _ _ _ CF)|]. intros ws.
  apply sh_bind; [|intros r; apply sh_ret]. apply sh_fold. intros [v m] w. apply sh_bind; [|intros r; apply sh_ret].
  unfold fa_conditional_select. do 2 (apply sh_bind; [apply sh_mul|]; intros ?). apply sh_ret.
Qed.
Theorem C44_squeeze_refuted cs st vs n k : wf_cs cs -> Forall2 (stands_for cs) st vs -> (1 <= n <= 253)%nat -> (0 <= k < 2 ^ Z.of_nat n)%Z ->
  admits cs (squeeze_g B st n) (fun s' r => pf_val B (lc s' r) = k).
Proof.
  intros W H HN HK. destruct (bits_exist n k HK) as (bs & L & E). set (ch := repeat false (256 - n) ++ bs).
  assert (LC : length ch = 256%nat) by (unfold ch; rewrite app_length, repeat_length; lia).
  assert (SK : skipn (256 - n) ch = bs) by (unfold ch; rewrite skipn_app, repeat_length, Nat.sub_diag, skipn_all2 by (rewrite repeat_length; lia); reflexivity).
  apply (admits_by1 B cs _ _ _ W (run_squeeze B q OB cs st vs n W H HN)). intros s HS. exists (squeeze_adv ch st n). split; [apply s1_of, sh_squeeze, LC|].
  assert (W' : wf_cs (with_values B s cs)) by (apply wv_wf; [exact W|apply HS]).
  assert (H' : exists vs', Forall2 (carries (with_values B s cs)) st vs').
  { clear - H. induction H as [|r v st vs [O _] H IH]; [exists []; constructor|]. destruct IH as (vs' & IH). eexists. constructor; [|exact IH]. split; [apply wv_ok, O|reflexivity]. }
  destruct H' as (vs' & H'). unfold squeeze_adv. eapply runs_bind; [apply (run_absorb B _ st vs' W' H')|]. intros h cs1 W1 U1 [OH _].
  eapply runs_bind.
  { apply runs_of. apply (to_bits_adv_ok B (pf_val B) q (pf_bits B) (pf_pow2 B) (pf_modulus B) (pf_nbits B) CF cs1 h n ch W1 OH); [lia|exact LC|]. rewrite SK. unfold bits_bound. destruct (Nat.ltb_spec n 254); lia. }
  intros ws cs2 W2 U2 [[RG BW] _]. rewrite SK in BW.
  assert (LW : length ws = n) by (rewrite (Forall2_len _ _ _ BW); exact L). rewrite firstn_all2 by (rewrite rev_length; lia).
  eapply runs_bind; [apply (run_bits_sum B (rev ws) (rev bs) cs2 _ _ 0 1 W2)|].
  - rewrite map_rev. apply Forall2_rev'. clear - RG BW. induction BW as [|w b ws bs E BW IH]; cbn [map]; constructor; inversion RG; subst; [split; assumption|apply IH; assumption].
  - apply car_const, W2.
  - apply car_const, W2.
  - intros r cs3 W3 U3 [OR HR]. apply runs_ret; [exact W3|]. rewrite HR, (bits_sum_val _ _ _ _ _ _ _ CF), lev_rev, E. apply Z.mod_small.
    pose proof (cf_p _ _ _ _ _ _ _ CF). assert (2 ^ Z.of_nat n <= 2 ^ 253)%Z by (apply Z.pow_le_mono_r; lia). lia.
Qed.
End Transcript.

(** ** C42, C43: the two curves of the crate *)
(** The step function of the crate's tests, z^3 + z + 5, is a step circuit. *)
Lemma example_uniform (F : pfield) rows : uni (fc_invoke_cs (example_function F) rows) (fc_invoke_cs (example_function F) rows).
Proof. cbn [example_function fc_invoke_cs]. destruct rows as [|r rows]; [apply u_panic|]. do 2 (apply u_bind; [apply u_mul|]; intros ?). apply u_ret. Qed.
Lemma example_step (F : pfield) : step_circuit (example_function F).
Proof.
  split.
  - intros [|z [|? ?]]; intros E; try discriminate. reflexivity.
  - intros cs rows z W L H. destruct z as [|z0 [|? ?]]; try discriminate L. inversion H as [|r ? rows' ? HR HN]; subst. inversion HN; subst. change (carries cs r z0) in HR.
    assert (R : runs cs (fc_invoke_cs (example_function F) [r]) (fun cs' out => Forall2 (stands_for cs') out [z0 * z0 * z0 + z0 + pf_of F 5])).
    { cbn [example_function fc_invoke_cs]. eapply runs_bind; [apply (run_mul F _ _ _ _ _ W HR HR)|]. intros s cs1 W1 U1 H1. ups U1. eapply runs_bind; [apply (run_mul F _ _ _ _ _ W1 H1 HR)|]. intros t cs2 W2 U2 H2. ups U2.
      apply runs_ret; [exact W2|]. constructor; [|constructor]. exact (car_plus F _ _ _ _ _ (car_plus F _ _ _ _ _ H2 HR) (car_const F _ (pf_of F 5) W2)). }
    destruct R as (out & cs' & new & E & W' & (GX & (dw & GW) & GG) & HN' & O). exists out, cs', dw, new. split; [exact E|]. split; [exact W'|].
    split; [exact (proj1 (proj2 (proj2 (example_uniform F [r] cs cs (same_refl F cs) _ _ _ _ E E))))|]. split; [exact GW|]. split; [exact GG|]. split; [exact HN'|exact O].
  - intros cs1 cs2 rows out1 out2 d1 d2 SS E1 E2. destruct (example_uniform F rows cs1 cs2 (proj2 SS) _ _ _ _ E1 E2) as (EO & SH & X1 & X2). split; [exact EO|]. split; [|split; assumption].
    split; [|exact SH]. destruct SH as (_ & A & B & C & _). unfold gates. rewrite A, B, C. reflexivity.
Qed.
Lemma example_value (F : pfield) (z : F) : fc_invoke (example_function F) [z] = [z * z * z + z + pf_of F 5]. Proof. reflexivity. Qed.

Section Ivc.
(** Any round constants, any step circuits, any generators. *)
Variables (cr : list FrFld) (cq : list FqFld).
Notation R := (fr_pf cr).
Notation Q := (fq_pf cq).
Notation E1 := (bn254_driver cr cq).
Notation E2 := (grumpkin_driver cr cq).
Variables (FC1 : fcircuit R) (FC2 : fcircuit Q).
Hypothesis SC1 : step_circuit FC1.
Hypothesis SC2 : step_circuit FC2.
Variables (ck1 : list (d_pt E1)) (ck2 : list (d_pt E2)).
Notation cyc f := (f R Q g1_param_b g1_param_b3 grumpkin_param_b grumpkin_param_b3 R_MOD Q_MOD (fr_field_ok cr) (fq_field_ok cq) g1_ok grumpkin_ok).
Let SO := cyc setup_ok g1_no2 grumpkin_no2 FC1 FC2 SC1 SC2 ck1 ck2.

(** Setup succeeds; from any initial states, [n] steps leave the counter at [n], the initial states as they
    were and the current states at the [n]-th iterate of the step functions; the proof says so and is
    accepted. *)
Theorem C42_steps_and_acceptance : exists pp, setup FC1 FC2 ck1 ck2 = Some pp /\
  forall z01 z02 n, length z01 = 1%nat -> length z02 = 1%nat -> (1 <= n)%nat -> (Z.of_nat n < 2 ^ 64)%Z ->
  exists s0 s pf, init FC1 FC2 pp z01 z02 = Some s0 /\ prove_steps FC1 FC2 pp s0 n = Some (s, pf) /\
    iv_i s = Z.of_nat n /\ iv_z01 s = z01 /\ iv_z02 s = z02 /\ iv_zi1 s = iterate n (fc_invoke FC1) z01 /\ iv_zi2 s = iterate n (fc_invoke FC2) z02 /\
    rp_i pf = Z.of_nat n /\ rp_z01 pf = z01 /\ rp_z02 pf = z02 /\ rp_zi1 pf = iterate n (fc_invoke FC1) z01 /\ rp_zi2 pf = iterate n (fc_invoke FC2) z02 /\
    verify pp pf = Some true.
Proof.
  destruct SO as (z1 & cs1 & z2 & cs2 & G1 & G2 & ES & W1 & W2 & L1 & L2 & _). eexists. split; [exact ES|]. intros z01 z02 n LZ1 LZ2 H1 H2.
  destruct (cyc steps_ok g1_no2 grumpkin_no2 (bn254_driver_ok cr cq) (grumpkin_driver_ok cr cq) FC1 FC2 SC1 SC2 ck1 ck2 z1 cs1 z2 cs2 G1 G2 W1 W2 L1 L2 z01 z02 LZ1 LZ2 n H1 H2) as (s0 & s & E0 & EP & EI & V).
  exists s0, s, (proof_of s). split; [exact E0|]. split; [exact EP|]. pose proof V as (A & B & C & D & _). split; [exact EI|]. split; [exact A|]. split; [exact B|]. split; [exact C|]. split; [exact D|].
  split; [exact EI|]. split; [exact A|]. split; [exact B|]. split; [exact C|]. split; [exact D|].
  exact (cyc verify_ok (grumpkin_driver_ok cr cq) FC1 FC2 ck1 ck2 cs1 cs2 W1 W2 L1 L2 z01 z02 LZ1 LZ2 n s V EI).
Qed.
(** [init] already runs the step functions once: the counter says 0 and the states are the first iterates.
    The first call of [prove_step] only moves the counter. *)
Theorem C42_init_is_ahead : exists pp, setup FC1 FC2 ck1 ck2 = Some pp /\
  forall z01 z02, length z01 = 1%nat -> length z02 = 1%nat ->
  exists s0, init FC1 FC2 pp z01 z02 = Some s0 /\ iv_i s0 = 0%Z /\ iv_zi1 s0 = fc_invoke FC1 z01 /\ iv_zi2 s0 = fc_invoke FC2 z02.
Proof.
  destruct SO as (z1 & cs1 & z2 & cs2 & G1 & G2 & ES & W1 & W2 & L1 & L2 & _). eexists. split; [exact ES|]. intros z01 z02 LZ1 LZ2.
  destruct (cyc init_ok g1_no2 grumpkin_no2 (bn254_driver_ok cr cq) (grumpkin_driver_ok cr cq) FC1 FC2 SC1 SC2 ck1 ck2 z1 cs1 z2 cs2 G1 G2 L1 L2 z01 z02 LZ1 LZ2) as (s0 & E0 & EI & V).
  exists s0. split; [exact E0|]. split; [exact EI|]. destruct V as (_ & _ & C & D & _). split; [exact C|exact D].
Qed.

(** What acceptance of a proof with vectors of the right lengths means: two hashes, two relaxed systems
    and one strict system with its commitment. *)
Theorem C43_verify_iff pp (p : rproof R Q E1 E2) : setup FC1 FC2 ck1 ck2 = Some pp ->
  sized (pp_sh1 pp) (rp_ur1 p) (rp_wr1 p) -> sized (pp_sh2 pp) (rp_ur2 p) (rp_wr2 p) -> length (i_x (rp_us2 p)) = sh_l (pp_sh2 pp) -> length (rp_ws2 p) = sh_w (pp_sh2 pp) ->
  (verify pp p = Some true <->
   (exists h1 h2, rinst_hash (rp_ur2 p) (rp_i p) (rp_z01 p) (rp_zi1 p) = Some h1 /\ rinst_hash (rp_ur1 p) (rp_i p) (rp_z02 p) (rp_zi2 p) = Some h2 /\
      nth_error (i_x (rp_us2 p)) 0 = Some h1 /\ exists x1, nth_error (i_x (rp_us2 p)) 1 = Some x1 /\ h2 = transfer Q R x1) /\
   relaxed_holds (pp_sh1 pp) (ri_u (rp_ur1 p)) (ri_x (rp_ur1 p)) (rw_w (rp_wr1 p)) (rw_e (rp_wr1 p)) /\
   relaxed_holds (pp_sh2 pp) (ri_u (rp_ur2 p)) (ri_x (rp_ur2 p)) (rw_w (rp_wr2 p)) (rw_e (rp_wr2 p)) /\
   strict_holds (pp_sh2 pp) (i_x (rp_us2 p)) (rp_ws2 p) /\ i_w (rp_us2 p) = commit E2 (pp_ck2 pp) (rp_ws2 p)).
Proof.
  intros ES0 S1 S2 LX LW. destruct SO as (z1 & cs1 & z2 & cs2 & G1 & G2 & ES & W1 & W2 & L1 & L2 & _). 
  assert (EE : pp = mkPp (E1 := E1) (E2 := E2) (shape_of cs1) (shape_of cs2) ck1 ck2) by exact (f_equal (fun o => match o with Some v => v | None => pp end) (eq_trans (eq_sym ES0) ES)).
  clear ES ES0. subst pp.
  cbn [pp_sh1 pp_sh2 pp_ck2] in *. assert (l1 : sh_l (shape_of cs1) = 2%nat) by (cbn [shape_of sh_l]; rewrite L1; reflexivity). assert (l2 : sh_l (shape_of cs2) = 2%nat) by (cbn [shape_of sh_l]; rewrite L2; reflexivity).
  destruct (C41_relaxed_check Q R E1 (shape_of cs1) (wf_shape_of R cs1 W1) _ _ S1) as (t1 & H1 & T1).
  destruct (C41_relaxed_check R Q E2 (shape_of cs2) (wf_shape_of Q cs2 W2) _ _ S2) as (t2 & H2 & T2).
  destruct (C41_strict_check R Q E2 R_MOD Q_MOD (grumpkin_driver_ok cr cq) (shape_of cs2) (wf_shape_of Q cs2 W2) ck2 _ _ LX LW) as (t3 & H3 & T3).
  unfold verify. cbn [pp_sh1 pp_sh2 pp_ck2]. rewrite H1, H2, H3, LX, (proj1 S1), (proj1 S2), l1, l2. cbn [Nat.eqb negb orb].
  destruct (i_x (rp_us2 p)) as [|x0 [|x1 [|? ?]]] eqn:EX; try (rewrite l2 in LX; discriminate LX). cbn [nth_error].
  destruct (hash_total R Q E2 Q_MOD (fq_field_ok cq) (rp_ur2 p) (rp_i p) (rp_z01 p) (rp_zi1 p)) as (h1 & EH1). destruct (hash_total Q R E1 R_MOD (fr_field_ok cr) (rp_ur1 p) (rp_i p) (rp_z02 p) (rp_zi2 p)) as (h2 & EH2).
  rewrite EH1, EH2. unfold strict_pair in T3. rewrite EX in T3. split.
  - intros E. destruct (keqb h1 x0) eqn:K1; [|discriminate E]. destruct (keqb h2 (transfer Q R x1)) eqn:K2; [|discriminate E]. cbn [negb orb] in E. apply (keqb_eq Q) in K1. apply (keqb_eq R) in K2.
    destruct t1; [|discriminate E]. destruct t2; [|discriminate E]. destruct t3; [|discriminate E]. split; [|split; [apply T1; reflexivity|split; [apply T2; reflexivity|apply T3; reflexivity]]].
    exists h1, h2. split; [reflexivity|]. split; [reflexivity|]. split; [rewrite K1; reflexivity|]. exists x1. split; [reflexivity|exact K2].
  - intros ((h1' & h2' & A1 & A2 & A3 & x1' & A4 & A5) & B1 & B2 & B3). assert (I1 : h1 = x0) by congruence. assert (I2 : h2 = transfer Q R x1) by congruence.
    rewrite I1, I2, !keqb_refl. cbn [negb orb]. rewrite (proj2 T1 B1), (proj2 T2 B2). f_equal. apply T3. split; [exact LX|]. split; [exact LW|exact B3].
Qed.
(** A proof can say anything: for any counter and any states, initial and current, there is an accepted
    proof that carries them. *)
Theorem C43_anything_accepted : exists pp, setup FC1 FC2 ck1 ck2 = Some pp /\
  forall i z01 z02 zn1 zn2, exists p, rp_i p = i /\ rp_z01 p = z01 /\ rp_z02 p = z02 /\ rp_zi1 p = zn1 /\ rp_zi2 p = zn2 /\ verify pp p = Some true.
Proof.
  destruct SO as (z1 & cs1 & z2 & cs2 & G1 & G2 & ES & W1 & W2 & L1 & L2 & HS & ON & x & RX). eexists. split; [exact ES|]. intros i a1 a2 c1 c2.
  exact (cyc forge_ok (bn254_driver_ok cr cq) (grumpkin_driver_ok cr cq) ck1 ck2 cs1 cs2 W1 W2 L1 L2 [k0] [k0] eq_refl eq_refl HS ON x RX i a1 a2 c1 c2).
Qed.
Theorem C43_soundness_refuted : exists pp, setup FC1 FC2 ck1 ck2 = Some pp /\
  ~ forall p, verify pp p = Some true -> rp_zi1 p = iterate (Z.to_nat (rp_i p)) (fc_invoke FC1) (rp_z01 p).
Proof.
  destruct C43_anything_accepted as (pp & ES & H). exists pp. split; [exact ES|]. intros C.
  destruct (H 0%Z [k0] [k0] [k1] [k0]) as (p & A & B & _ & D & _ & V). specialize (C p V). rewrite A, B, D in C. cbn [iterate Z.to_nat] in C. assert (E : (k1 : R) = k0) by congruence. exact (k1_neq0 R E).
Qed.
(** Why: no gate of the second circuit mentions its public inputs. *)
Theorem C43_public_inputs_free : exists pp, setup FC1 FC2 ck1 ck2 = Some pp /\
  exists w, forall x, strict_holds (pp_sh2 pp) x w.
Proof.
  destruct SO as (z1 & cs1 & z2 & cs2 & G1 & G2 & ES & W1 & W2 & L1 & L2 & HS & ON & x & RX). eexists. split; [exact ES|]. cbn [pp_sh2]. exists (r_w cs2). intros x'. exact (strict_free Q cs2 x x' W2 HS RX ON).
Qed.
End Ivc.
(** The step function of the crate's tests on both curves: 10 steps from 3 and 5 are proved and accepted. *)
Example C42_hypotheses_met cr cq ck1 ck2 : exists pp s0 s pf, setup (E1 := bn254_driver cr cq) (E2 := grumpkin_driver cr cq) (example_function (fr_pf cr)) (example_function (fq_pf cq)) ck1 ck2 = Some pp /\
  init (example_function (fr_pf cr)) (example_function (fq_pf cq)) pp [pf_of (fr_pf cr) 3] [pf_of (fq_pf cq) 5] = Some s0 /\
  prove_steps (example_function (fr_pf cr)) (example_function (fq_pf cq)) pp s0 10 = Some (s, pf) /\
  rp_zi1 pf = iterate 10 (fc_invoke (example_function (fr_pf cr))) [pf_of (fr_pf cr) 3] /\ verify pp pf = Some true.
Proof.
  destruct (C42_steps_and_acceptance cr cq _ _ (example_step (fr_pf cr)) (example_step (fq_pf cq)) ck1 ck2) as (pp & ES & H).
  destruct (H [pf_of (fr_pf cr) 3] [pf_of (fq_pf cq) 5] 10%nat eq_refl eq_refl ltac:(lia) ltac:(lia)) as (s0 & s & pf & A & B & _ & _ & _ & _ & _ & _ & _ & _ & C & _ & D).
  exists pp, s0, s, pf. split; [exact ES|]. split; [exact A|]. split; [exact B|]. split; [exact C|exact D].
Qed.
(** Rows to absorb exist: two witnesses in a fresh system, hashed and squeezed to 128 bits; and the same with
    the 128 bits of 77 in another satisfying assignment. *)
Example C44_hypotheses_met cr cq (u v : FrFld) : exists (x y : row FrFld) cs, wf_cs cs /\ is_sat FrFld cs = Some true /\ Forall2 (stands_for cs) [x; y] [u; v] /\
  complete_at cs (squeeze_g (fr_pf cr) [x; y] 128) (fun cs' r => exists w, stands_for cs' r w /\ fr_val w = fq_val (squeeze (fr_pf cr) (fq_pf cq) [u; v] 128)) /\
  admits cs (squeeze_g (fr_pf cr) [x; y] 128) (fun s' r => fr_val (lc s' r) = 77%Z).
Proof.
  assert (RW : runs (r1cs_default FrFld) (bind (fa_witness FrFld u) (fun x => bind (fa_witness FrFld v) (fun y => ret (x, y)))) (fun cs '(x, y) => carries cs x u /\ carries cs y v)).
  { eapply runs_bind; [apply (run_witness FrFld _ _ (wf_default FrFld))|]. intros x cs1 W1 U1 H1. eapply runs_bind; [apply (run_witness FrFld _ _ W1)|]. intros y cs2 W2 U2 H2. ups U2. apply runs_ret; [exact W2|]. split; assumption. }
  destruct (runs_complete FrFld _ _ _ (wf_default FrFld) RW) as ([x y] & cs & E & W & EX & SAT & HX & HY). exists x, y, cs. split; [exact W|]. split; [apply SAT; vm_compute; reflexivity|].
  assert (FA : Forall2 (stands_for cs) [x; y] [u; v]) by (constructor; [exact HX|constructor; [exact HY|constructor]]). split; [exact FA|]. split.
  - exact (C44_squeeze_agrees (fr_pf cr) (fq_pf cq) R_MOD Q_MOD (fr_field_ok cr) (fq_field_ok cq) cs [x; y] [u; v] 128 W FA ltac:(lia)).
  - exact (C44_squeeze_refuted (fr_pf cr) R_MOD (fr_field_ok cr) cs [x; y] [u; v] 128 77 W FA ltac:(lia) ltac:(lia)).
Qed.
