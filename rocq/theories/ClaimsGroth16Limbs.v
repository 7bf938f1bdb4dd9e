(** Property C74: Groth16 computed with the limb-level [square], [invert] and [pow] of Fr and Fq, which lose a carry on some
    elements (properties C02, C03, C06), from [setup] to [verify].
    Specification: C73 for the protocol over exact arithmetic; C65 ([fq_lost], [fr_lost], [fq2_lost]: the elements whose
    [square] is wrong); Groth16Limbs.v ("guarded" runs: the code, stopped by a panic before its first wrong [square],
    [invert] or [pow]). *)
From Coq Require Import ZArith List Bool Lia Field.
From Verif Require Import LimbModel FieldModel FieldProofs FieldMore FieldSpec ClaimsField Algebra GroupLib ExtModel ExtParams ExtProofs ExtFrob CurveSpec CurveGroup CurveAb CurveParams CurveOrder
  PolySpec PolyModel PolyProofs ClaimsPoly R1csModel R1csSpec Groth16Model Groth16Spec ClaimsGroth16 MsmModel WeierSqModel WeierSqProofs ClaimsWeierSq.
From Verif Require Import PairingModel FinalExp PairingRefine PairingFinal PairBn G2Order PairBilin ClaimsBilinear Groth16Bn ClaimsGroth16Bn.
From Verif Require Import PairSqModel PairSqProofs ClaimsPairSq PolySpec FftInverse FftSqModel ClaimsFftSq.
From Verif Require Import WeierModel WeierProofs Groth16Points Groth16PointsProofs ClaimsGroth16Pts Groth16Limbs Groth16LimbsProofs.
Import ListNotations.
Local Notation F := FqFld. Local Notation R := FrFld.

(** ** [invert] is right on [a]. *)
Definition same_opt {K : Fld} (x y : option K) : bool :=
  match x, y with Some a, Some b => keqb a b | None, None => true | _, _ => false end.
Definition fr_inv_ok (a : R) : bool := same_opt (fr_invert a) (kinvert a).
Definition fq_inv_ok (a : F) : bool := same_opt (fq_invert a) (kinvert a).
(** In Fq2 it squares the two coefficients and inverts the norm (fqn.rs:348-357). *)
Definition fq2_inv (a : Fq2Fld) : option (option Fq2Fld) := s_q2_invert_full F fq_sq fq_invert a.
Definition fq2_inv_ok (a : Fq2Fld) : bool := negb (fq_lost (c0 a)) && negb (fq_lost (c1 a)) && fq_inv_ok (norm2 a).

(** ** The operations of the code, for the digits [ds] of the Miller loop, and the guarded ones. *)
Definition miller (ds : list Z) (l : list (aff F * prepared F)) : option (q12 F) := multi_miller_loop F ds (map (fun c => (to1 (fst c), snd c)) l).
Definition limb_ops (ds : list Z) : gops R F Fq2Fld (q12 F) (prepared F) :=
  mkGops R F Fq2Fld (q12 F) (prepared F)
    (limb_curve F g1_param_b3 fq_sq (fun a => Some (fq_invert a))) (limb_curve Fq2Fld g2_param_b3 fq2_sq fq2_inv)
    (fun q => Some (limb_prepare ds (to2 q))) (fun l => bind (miller ds l) limb_final_exp)
    limb_fft (fun f tau => Some (limb_z f tau)) limb_divide (fun a => Some (fr_invert a)).
Local Notation t61 := (nth 1 frob_fq6_c1 (q2_0 F)). Local Notation t62 := (nth 2 frob_fq6_c1 (q2_0 F)).
Definition exact_prepare_point (ds : list Z) (q : aff Fq2Fld) : prepared F := PairingModel.prepare F t61 t62 xi_to_q_minus_1_over_2 ds (to2 q).
Definition prepare_ok (ds : list Z) (q : aff Fq2Fld) : bool := no_loss2b (prepare_squares F t61 t62 xi_to_q_minus_1_over_2 ds (to2 q)).
Definition final_ok (f : q12 F) : bool :=
  no_loss2b (final_exp_squares F BN_X frob_fq2_c1 frob_fq6_c1 frob_fq6_c2 frob_fq12_c1 f) && fq2_inv_ok (inverted2 F f).
Definition fft_ok (k : nat) : bool := fr_inv_ok (fft_domain k) && fr_inv_ok (kofnat (2 ^ k)%nat) && fr_inv_ok fr_gen.
Definition pow_ok (a : R) (n : nat) : bool := keqb (fr_pow a (Z.of_nat n)) (kpow a n).
Definition when {A} (b : bool) (a : option A) : option A := if b then a else None.
Definition guarded_ops (ds : list Z) : gops R F Fq2Fld (q12 F) (prepared F) :=
  mkGops R F Fq2Fld (q12 F) (prepared F)
    (guarded_curve F g1_param_b3 fq_lost fq_inv_ok) (guarded_curve Fq2Fld g2_param_b3 fq2_lost fq2_inv_ok)
    (fun q => when (prepare_ok ds q) (Some (exact_prepare_point ds q))) (fun l => bind (miller ds l) (fun f => when (final_ok f) (fe f)))
    (fun k => when (fft_ok k) (fft_new R fr_two_adicity fr_root fr_gen k)) (fun f tau => when (pow_ok tau (fft_n f)) (Some (fft_z R f tau)))
    (fun f v => when (pow_ok fr_gen (fft_n f) && fr_inv_ok (z_on_coset R f fr_gen)) (divide_by_z_on_coset R f fr_gen v))
    (fun a => when (fr_inv_ok a) (Some (kinvert a))).
Definition exact_pairing (ds : list Z) (l : list (aff F * prepared F)) : option (q12 F) := bind (miller ds l) fe.
Local Notation exact_ops' ds := (exact_ops R fr_two_adicity fr_root fr_gen F Fq2Fld g1_param_b3 g2_param_b3 (q12 F) (prepared F) (exact_prepare_point ds) (exact_pairing ds)).

Lemma same_opt_eq (K : Fld) (x y : option K) : same_opt x y = true -> x = y.
Proof. unfold same_opt. destruct x as [x|], y as [y|]; intros H; try discriminate; [|reflexivity]. apply keqb_eq in H. rewrite H. reflexivity. Qed.
Lemma fr_inv_right a : fr_inv_ok a = true -> fr_invert a = kinvert a. Proof. apply same_opt_eq. Qed.
Lemma fq_inv_right a : fq_inv_ok a = true -> Some (fq_invert a) = Some (kinvert a). Proof. intros H. rewrite (same_opt_eq F _ _ H). reflexivity. Qed.
Lemma exact_inv_of a : fq2_inv_ok a = true -> exact_invert F fq_sq fq_invert a.
Proof.
  unfold fq2_inv_ok. intros H. apply andb_prop in H as [H H2]. apply andb_prop in H as [H0 H1]. apply negb_true_iff in H0, H1.
  split; [apply fq_exact, H0|]. split; [apply fq_exact, H1|]. exact (same_opt_eq F _ _ H2).
Qed.
Lemma fq2_kinvert (a : Fq2Fld) : q2_invert_full F a = Some (kinvert a).
Proof.
  destruct (q2_invert_full_spec F fq_anisotropic a) as [A C]. unfold kinvert, kis0. destruct (keqb_spec Fq2Fld a k0) as [E|N]; [exact (A E)|exact (C N)].
Qed.
Lemma fq2_inv_right a : fq2_inv_ok a = true -> fq2_inv a = Some (kinvert a).
Proof.
  intros H. apply exact_inv_of in H. destruct H as (H0 & H1 & H). rewrite <- fq2_kinvert. unfold fq2_inv, s_q2_invert_full, q2_invert_full.
  rewrite H0, H1, H. reflexivity.
Qed.
Lemma no_loss2b_spec l : no_loss2b l = true -> exact2 F fq_sq l.
Proof. intros H. apply no_loss_exact2. intros a I. unfold no_loss2b in H. rewrite forallb_forall in H. apply negb_true_iff, H, I. Qed.
Lemma prepare_right ds q : prepare_ok ds q = true -> limb_prepare ds (to2 q) = exact_prepare_point ds q.
Proof. intros H. apply ex_prepare, no_loss2b_spec, H. Qed.
Lemma final_right f : final_ok f = true -> limb_final_exp f = fe f.
Proof. intros H. apply andb_prop in H as [H I]. apply ex_final_exp; [apply no_loss2b_spec, H|apply exact_inv_of, I]. Qed.
Lemma fft_right k : fft_ok k = true -> limb_fft k = fft_new R fr_two_adicity fr_root fr_gen k.
Proof.
  intros H. apply andb_prop in H as [H H2]. apply andb_prop in H as [H0 H1]. destruct (limb_fft k) as [f|] eqn:E.
  - symmetry. exact (g_all R fr_sq fr_invert _ _ _ C27_scalar_field fr_none root_exact k f E (fr_inv_right _ H0) (fr_inv_right _ H1) (fr_inv_right _ H2)).
  - unfold fft_new. destruct (Nat.eqb k 0) eqn:E0; [reflexivity|]. destruct (Nat.ltb fr_two_adicity k) eqn:E1; [reflexivity|]. exfalso.
    apply Nat.eqb_neq in E0. apply Nat.ltb_ge in E1. destruct (proj2 (C72_new k)) as (f & X & _); [lia|]. rewrite E in X. discriminate X.
Qed.
Lemma z_right f tau : pow_ok tau (fft_n f) = true -> limb_z f tau = fft_z R f tau.
Proof. intros H. apply keqb_eq in H. unfold limb_z, s_fft_z, fft_z. rewrite H. reflexivity. Qed.
Lemma divide_right f v : pow_ok fr_gen (fft_n f) && fr_inv_ok (z_on_coset R f fr_gen) = true -> limb_divide f v = divide_by_z_on_coset R f fr_gen v.
Proof.
  intros H. apply andb_prop in H as [H I]. apply keqb_eq in H. unfold limb_divide, s_divide_by_z_on_coset, divide_by_z_on_coset, s_z_on_coset. rewrite H.
  change (ksub (kpow fr_gen (fft_n f)) k1) with (z_on_coset R f fr_gen). rewrite (fr_inv_right _ I). reflexivity.
Qed.
Lemma when_le {A} b (x y : option A) : (b = true -> y = x) -> le_opt (when b x) y.
Proof. intros H. destruct b; [right; symmetry; apply H; reflexivity|left; reflexivity]. Qed.
Lemma bind_le {A B} (x : option A) (f g : A -> option B) : (forall a, le_opt (f a) (g a)) -> le_opt (bind x f) (bind x g).
Proof. intros H. destruct x; [apply H|left; reflexivity]. Qed.
Lemma guarded_le_limb ds : gle R F Fq2Fld (q12 F) (prepared F) (guarded_ops ds) (limb_ops ds).
Proof.
  split; [apply (guarded_limb F g1_param_b3 fq_sq _ fq_lost fq_inv_ok); [intros a; apply fq_exact|exact fq_inv_right]|].
  split; [apply (guarded_limb Fq2Fld g2_param_b3 fq2_sq _ fq2_lost fq2_inv_ok); [intros a; apply fq2_exact|exact fq2_inv_right]|].
  split; [intros q; apply when_le; intros H; exact (f_equal Some (prepare_right ds q H))|].
  split; [intros l; apply bind_le; intros f; apply when_le; exact (final_right f)|].
  split; [intros k; apply when_le; exact (fft_right k)|].
  split; [intros f tau; apply when_le; intros H; exact (f_equal Some (z_right f tau H))|].
  split; [intros f v; apply when_le; exact (divide_right f v)|].
  intros a. apply when_le. intros H. exact (f_equal Some (fr_inv_right a H)).
Qed.
Lemma guarded_le_exact ds : gle R F Fq2Fld (q12 F) (prepared F) (guarded_ops ds) (exact_ops' ds).
Proof.
  split; [apply guarded_exact|]. split; [apply guarded_exact|].
  split; [intros q; apply when_le; reflexivity|]. split; [intros l; apply bind_le; intros f; apply when_le; reflexivity|].
  split; [intros k; apply when_le; reflexivity|]. split; [intros f tau; apply when_le; reflexivity|].
  split; [intros f v; apply when_le; reflexivity|]. intros a. apply when_le. reflexivity.
Qed.

(** ** The runs. *)
Definition limb_setup ds := l_setup R fr_limbs fr F Fq2Fld bn_g1 bn_g2 (q12 F) (prepared F) (limb_ops ds).
Definition limb_prove := l_prove R fr_limbs fr F Fq2Fld (q12 F) (prepared F) (limb_ops ate_digits).
Definition limb_prepare_key ds := l_prepare R F Fq2Fld (q12 F) (prepared F) (limb_ops ds).
Definition limb_verify ds := l_verify R fr_limbs fr F Fq2Fld (q12 F) (prepared F) (q12_eqb F) (limb_ops ds).
Definition guarded_setup ds := l_setup R fr_limbs fr F Fq2Fld bn_g1 bn_g2 (q12 F) (prepared F) (guarded_ops ds).
Definition guarded_prove := l_prove R fr_limbs fr F Fq2Fld (q12 F) (prepared F) (guarded_ops ate_digits).
Definition guarded_prepare_key ds := l_prepare R F Fq2Fld (q12 F) (prepared F) (guarded_ops ds).
Definition guarded_verify ds := l_verify R fr_limbs fr F Fq2Fld (q12 F) (prepared F) (q12_eqb F) (guarded_ops ds).
(** The protocol over exact arithmetic with the digits [ds]; with [ate_digits] it is that of C73. *)
Definition plain_setup ds := c_setup R fr_limbs fr fr_two_adicity fr_root fr_gen F Fq2Fld g1_param_b3 g2_param_b3 bn_g1 bn_g2 (q12 F) (prepared F) (exact_prepare_point ds) (exact_pairing ds).
Definition plain_prepare_key ds := c_prepare F Fq2Fld (q12 F) (prepared F) (exact_prepare_point ds) (exact_pairing ds).
Definition plain_verify ds := c_verify R fr_limbs fr F Fq2Fld g1_param_b3 (q12 F) (prepared F) (exact_prepare_point ds) (exact_pairing ds) (q12_eqb F).
Theorem C74_plain_is_C73 : plain_setup ate_digits = bn_setup /\ plain_prepare_key ate_digits = bn_prepare /\ plain_verify ate_digits = bn_verify.
Proof. split; [reflexivity|]. split; reflexivity. Qed.

(** A run that the guards let through gives on limbs what it gives over exact arithmetic. *)
Theorem C74_setup_when_exact ds cs alpha beta gamma delta tau : guarded_setup ds cs alpha beta gamma delta tau <> Panicked ->
  limb_setup ds cs alpha beta gamma delta tau = guarded_setup ds cs alpha beta gamma delta tau /\
  plain_setup ds cs alpha beta gamma delta tau = guarded_setup ds cs alpha beta gamma delta tau.
Proof. exact (run_setup R fr_limbs fr _ _ _ F Fq2Fld _ _ bn_g1 bn_g2 _ _ _ _ _ _ (guarded_le_limb ds) (guarded_le_exact ds) cs alpha beta gamma delta tau). Qed.
Theorem C74_prove_when_exact pk cs r s : guarded_prove pk cs r s <> Panicked ->
  limb_prove pk cs r s = guarded_prove pk cs r s /\ bn_prove pk cs r s = guarded_prove pk cs r s.
Proof. exact (run_prove R fr_limbs fr _ _ _ F Fq2Fld _ _ _ _ _ _ _ _ (guarded_le_limb ate_digits) (guarded_le_exact ate_digits) pk cs r s). Qed.
Theorem C74_prepare_when_exact ds vk : guarded_prepare_key ds vk <> None ->
  limb_prepare_key ds vk = guarded_prepare_key ds vk /\ plain_prepare_key ds vk = guarded_prepare_key ds vk.
Proof. exact (run_prepare R _ _ _ F Fq2Fld _ _ _ _ _ _ _ _ (guarded_le_limb ds) (guarded_le_exact ds) vk). Qed.
Theorem C74_verify_when_exact ds vk pf xs : guarded_verify ds vk pf xs <> Panicked ->
  limb_verify ds vk pf xs = guarded_verify ds vk pf xs /\ plain_verify ds vk pf xs = guarded_verify ds vk pf xs.
Proof. exact (run_verify R fr_limbs fr _ _ _ F Fq2Fld _ _ _ _ _ _ (q12_eqb F) _ _ (guarded_le_limb ds) (guarded_le_exact ds) vk pf xs). Qed.

(** Completeness of the code: honest runs through which no wrong square, inverse or power passes end with an accepted proof. *)
Theorem C74_completeness_when_exact k cs0 alpha beta gamma delta tau cs r t :
  (1 <= k <= 28)%nat -> wf_cs cs0 -> fits cs0 -> r_m cs0 = (2 ^ k)%nat -> usable (2 ^ k) gamma delta tau ->
  wf_cs cs -> same_circuit cs0 cs -> is_sat FrFld cs = Some true ->
  guarded_setup ate_digits cs0 alpha beta gamma delta tau <> Panicked ->
  (forall pk vk, limb_setup ate_digits cs0 alpha beta gamma delta tau = Done (pk, vk) -> guarded_prove pk cs r t <> Panicked) ->
  (forall pk vk pf, limb_setup ate_digits cs0 alpha beta gamma delta tau = Done (pk, vk) -> limb_prove pk cs r t = Done pf -> guarded_verify ate_digits vk pf (tl (r_x cs)) <> Panicked) ->
  exists pk vk pf, limb_setup ate_digits cs0 alpha beta gamma delta tau = Done (pk, vk) /\ limb_prove pk cs r t = Done pf /\ limb_verify ate_digits vk pf (tl (r_x cs)) = Done tt.
Proof.
  intros Hk W0 HF Hm HU Wc SC SAT GS GP GV. destruct (C73_completeness k cs0 alpha beta gamma delta tau cs r t Hk W0 HF Hm HU Wc SC SAT) as (pk & vk & pf & HS & HP & HV).
  destruct C74_plain_is_C73 as (ES & _ & EV). destruct (C74_setup_when_exact ate_digits cs0 alpha beta gamma delta tau GS) as [S1 S2]. rewrite ES in S2. rewrite <- S2, HS in S1.
  specialize (GP pk vk S1). destruct (C74_prove_when_exact pk cs r t GP) as [P1 P2]. rewrite <- P2, HP in P1.
  specialize (GV pk vk pf S1 P1). destruct (C74_verify_when_exact ate_digits vk pf (tl (r_x cs)) GV) as [V1 V2]. rewrite EV in V2. rewrite <- V2, HV in V1.
  exists pk, vk, pf. auto.
Qed.
(** The verifier of the code decides the pairing equation, on runs that the guards let through. *)
Theorem C74_verify_iff_when_exact vk pf xs X eAB eab eX eC : key_points vk -> proof_points pf ->
  aff1_point X = lin1 (cvk_ic _ _ vk) (k1 :: xs) ->
  ate_pairing (to1 (cpf_a _ _ pf)) (to2 (cpf_b _ _ pf)) = Some eAB -> ate_pairing (to1 (cvk_alpha_g1 _ _ vk)) (to2 (cvk_beta_g2 _ _ vk)) = Some eab ->
  ate_pairing X (to2 (cvk_gamma_g2 _ _ vk)) = Some eX -> ate_pairing (to1 (cpf_c _ _ pf)) (to2 (cvk_delta_g2 _ _ vk)) = Some eC ->
  guarded_prepare_key ate_digits vk <> None -> (forall pvk, limb_prepare_key ate_digits vk = Some pvk -> guarded_verify ate_digits pvk pf xs <> Panicked) ->
  exists pvk, limb_prepare_key ate_digits vk = Some pvk /\
    (limb_verify ate_digits pvk pf xs = Done tt <-> length (cvk_ic _ _ vk) = S (length xs) /\ eAB = q12_mul FqFld eab (q12_mul FqFld eX eC)).
Proof.
  intros HK HP HX E1 E2 E3 E4 GP GV. destruct (C73_verify_iff vk pf xs X eAB eab eX eC HK HP HX E1 E2 E3 E4) as (pvk & EP & V).
  destruct C74_plain_is_C73 as (_ & EPr & EV). destruct (C74_prepare_when_exact ate_digits vk GP) as [S1 S2]. rewrite EPr in S2. rewrite <- S2, EP in S1.
  exists pvk. split; [exact S1|]. specialize (GV pvk S1). destruct (C74_verify_when_exact ate_digits pvk pf xs GV) as [V1 V2]. rewrite EV in V2. rewrite V1, <- V2. exact V.
Qed.
(** [prepare] on limbs is wrong for some verifying keys whose points are on the curves. *)
Lemma gen_neg (K : Fld) (b x y : K) : on_curve b (Pt x y) -> on_curve b (aff_pt K (aff_neg K (Aff x y false))).
Proof. intros H. rewrite neg_aff_ok. apply on_neg. exact H. Qed.
Lemma gen_negneg (K : Fld) (x y : K) : aff_neg K (aff_neg K (Aff x y false)) = Aff x y false.
Proof. unfold aff_neg. cbn [ax ay ainf]. rewrite (g_oppopp K y). reflexivity. Qed.
Lemma to2_aff (x y : Fq2Fld) b : to2 (Aff x y b) = Aff2 F x y b. Proof. reflexivity. Qed.
Lemma exact_prepare_ate q : exact_prepare_point ate_digits q = ate_prepare (to2 q). Proof. reflexivity. Qed.
Lemma gen_neq {A B C} (f g : B -> C) (t : A -> B) (n : A -> A) (a : A) (b : B) : n (n a) = a -> t a = b -> f b <> g b -> f (t (n (n a))) <> g (t (n (n a))).
Proof. intros -> -> H. exact H. Qed.
Lemma prepare_bad : exists q : aff Fq2Fld, on_curve (K := Fq2Fld) g2_param_b (aff_pt Fq2Fld q) /\ limb_prepare ate_digits (to2 (aff_neg Fq2Fld q)) <> exact_prepare_point ate_digits (aff_neg Fq2Fld q).
Proof.
  destruct C71_prepare_refuted as (x & y & H & N). exists (aff_neg Fq2Fld (Aff (F := Fq2Fld) x y false)).
  split; [exact (gen_neg Fq2Fld g2_param_b x y H)|]. rewrite exact_prepare_ate.
  exact (gen_neq (limb_prepare ate_digits) ate_prepare to2 (aff_neg Fq2Fld) _ _ (gen_negneg Fq2Fld x y) (to2_aff x y false) N).
Qed.
Section One.
Variable K : Fld.
Add Field onK : (kth K).
Add Ring on2 : (q2_ring K).
Add Ring on6 : (q6_ring K).
Local Open Scope fld_scope.
Local Notation one := (q12_1 K). Local Notation z2 := (q2_0 K). Local Notation i2 := (q2_1 K).
Lemma o_sq : q12_sq K one = one. Proof. rewrite (q12_sq_mul K). apply u_mul. Qed.
Lemma o_norm12 : norm12 K one = Q6 i2 z2 z2.
Proof.
  unfold norm12. rewrite !(q6_sq_mul K), (q6_nonres_mul K). unfold q12_1. cbn [e0 e1].
  change (Q6 i2 z2 z2) with (q6_1 K). ring.
Qed.
Lemma o_norm6 : norm6 K (Q6 i2 z2 z2) = i2.
Proof. unfold norm6. cbn [d0 d1 d2]. rewrite !(q2_sq_mul K), !(q2_nonres_mul K). ring. Qed.
Lemma o_invert2 : q2_invert K i2 = Some i2.
Proof.
  unfold q2_1, q2_invert, q2_invert_full, q2_is0. cbn [c0 c1].
  assert (N : kis0 (1 : K) = false). { destruct (kis0 (1 : K)) eqn:E; [|reflexivity]. exfalso. apply (k1_neq0 K), (keqb_eq K), E. }
  rewrite N. cbn [andb]. assert (E : ksq 1 + ksq 0 = (1 : K)) by (unfold ksq; ring). rewrite E.
  unfold kinvert. rewrite N. apply f_equal, f_equal2; field; exact (k1_neq0 K).
Qed.
Lemma o_inv : q12_invert K one = Some one.
Proof.
  unfold q12_invert. change (q6_sub K (q6_sq K (e0 one)) (q6_nonres K (q6_sq K (e1 one)))) with (norm12 K one). rewrite o_norm12.
  unfold q6_invert. cbv zeta.
  match goal with |- context [q2_invert K ?t] => replace (q2_invert K t) with (q2_invert K i2); [|apply f_equal; symmetry; exact o_norm6] end.
  rewrite o_invert2. cbn [d0 d1 d2]. rewrite !(q2_sq_mul K), !(q2_nonres_mul K). apply f_equal. unfold q12_1. cbn [e0 e1].
  apply (q12_eq K); cbn [e0 e1]; [rewrite (q6_mul_coords K); unfold q6_1; apply (q6_eq K); cbn [d0 d1 d2]; ring|ring].
Qed.
Lemma o_fe x t0 t1 t2 t12 : final_exp K x t0 t1 t2 t12 one = Some one.
Proof. unfold final_exp. rewrite o_inv. cbv zeta. rewrite u_conj. repeat (rewrite ?u_frobs, ?u_mul, ?u_exp, ?u_conj, ?u_cyc). reflexivity. Qed.
Lemma o_squares x t0 t1 t2 t12 : Forall (fun a => a = z2 \/ a = i2) (final_exp_squares K x t0 t1 t2 t12 one).
Proof.
  unfold final_exp_squares. rewrite o_inv. cbv zeta. rewrite u_conj. repeat (rewrite ?u_frobs, ?u_mul, ?u_exp, ?u_conj, ?u_cyc).
  pose proof (u_exp_squares K x) as H1. pose proof (u_cyc_squares K) as H2. unfold unit_only in H1, H2.
  apply Forall_app; split; [unfold invert_squares; apply Forall_app; split; [|apply Forall_app; split]|
    do 3 (apply Forall_app; split; [exact H1|]); do 3 (apply Forall_app; split; [exact H2|]); exact H2].
  - unfold q6_sq_squares, q12_1, q6_1. cbn [e0 d0 d1 d2]. assert (E : q2_add K (q2_sub K i2 z2) z2 = i2) by ring. rewrite E. repeat (apply Forall_cons; [tauto|]). apply Forall_nil.
  - unfold q6_sq_squares, q12_1, q6_0. cbn [e1 d0 d1 d2]. assert (E : q2_add K (q2_sub K z2 z2) z2 = z2) by ring. rewrite E. repeat (apply Forall_cons; [tauto|]). apply Forall_nil.
  - rewrite o_norm12. cbn [d0 d1 d2]. repeat (apply Forall_cons; [tauto|]). apply Forall_nil.
Qed.
Lemma o_loop ds : forall b, miller_loop K b ds one [] = Some (one, []).
Proof. induction ds as [|d ds IH]; intros b; [reflexivity|]. cbn [miller_loop step_pairs PairingModel.bind]. rewrite o_sq. replace (if b then one else one) with one by (destruct b; reflexivity). destruct (_ || _)%bool; apply IH. Qed.
Lemma o_multi ds l : cursors K l = [] -> multi_miller_loop K ds l = Some one.
Proof. intros E. unfold multi_miller_loop. rewrite E, o_loop. reflexivity. Qed.
End One.
Lemma norm2_one : fq_val (norm2 (q2_1 F)) = 1%Z. Proof. apply (proj1 (Z.eqb_eq _ _)). vm_compute. reflexivity. Qed.
Lemma opt_same (K : Fld) (x y : option K) : x = y -> same_opt x y = true. Proof. intros ->. unfold same_opt. destruct y; [apply keqb_refl|reflexivity]. Qed.
Lemma fq_inv_0 : fq_inv_ok k0 = true. Proof. vm_compute. reflexivity. Qed.
Lemma fq_one_val : fq_val (k1 : F) = 1%Z. Proof. apply (proj1 (Z.eqb_eq _ _)). vm_compute. reflexivity. Qed.
Lemma fq_inv_val_1 (a : F) : fq_val a = 1%Z -> fq_inv_ok a = true.
Proof. intros E. apply opt_same. apply (lf_invert_exact fq Q_MOD fq_ok Q_MOD_prime a). change (carry_free Q_MOD (fq_val a) (Q_MOD - 2)). rewrite E. apply (carry_free_one fq Q_MOD). right; auto. Qed.
Lemma fq2_inv_1 : fq2_inv_ok (q2_1 F) = true.
Proof. unfold fq2_inv_ok. rewrite (fq_inv_val_1 _ norm2_one), andb_true_r. vm_compute. reflexivity. Qed.
Lemma one_ok : final_ok (q12_1 F) = true.
Proof.
  destruct unit_losses as (A & B & _). unfold final_ok. apply andb_true_intro. split.
  - unfold no_loss2b. apply forallb_forall. intros a H. pose proof (o_squares F BN_X frob_fq2_c1 frob_fq6_c1 frob_fq6_c2 frob_fq12_c1) as S. rewrite Forall_forall in S.
    destruct (S a H) as [X|X]; rewrite X; apply negb_true_iff; assumption.
  - unfold inverted2. rewrite o_norm12, o_norm6. exact fq2_inv_1.
Qed.
Lemma one_fe : fe (q12_1 F) = Some (q12_1 F). Proof. apply o_fe. Qed.
Lemma guarded_one ds l : cursors F (map (fun c => (to1 (fst c), snd c)) l) = [] -> go_pairing _ _ _ _ _ (guarded_ops ds) l = Some (q12_1 F).
Proof. intros E. cbn [guarded_ops go_pairing]. unfold miller. rewrite (o_multi F ds _ E). cbn [bind]. rewrite one_ok. exact one_fe. Qed.
Lemma limb_one ds l : cursors F (map (fun c => (to1 (fst c), snd c)) l) = [] -> go_pairing _ _ _ _ _ (limb_ops ds) l = Some (q12_1 F).
Proof. intros E. cbn [limb_ops go_pairing]. unfold miller. rewrite (o_multi F ds _ E). cbn [bind]. rewrite (final_right _ one_ok). exact one_fe. Qed.
Local Notation O1 := (aff_identity F). Local Notation O2 := (aff_identity Fq2Fld).
Lemma prepare_run (o : gops R F Fq2Fld (q12 F) (prepared F)) (vk : bn_key) b e g d : go_prepare _ _ _ _ _ o (cvk_beta_g2 _ _ vk) = Some b ->
  go_pairing _ _ _ _ _ o [(cvk_alpha_g1 _ _ vk, b)] = Some e -> go_prepare _ _ _ _ _ o (aff_neg Fq2Fld (cvk_gamma_g2 _ _ vk)) = Some g ->
  go_prepare _ _ _ _ _ o (aff_neg Fq2Fld (cvk_delta_g2 _ _ vk)) = Some d -> l_prepare R F Fq2Fld (q12 F) (prepared F) o vk = Some (mkCPvk F (q12 F) (prepared F) e g d (cvk_ic _ _ vk)).
Proof. intros H1 H2 H3 H4. unfold l_prepare. rewrite H1. cbn [obnd]. rewrite H2. cbn [obnd]. rewrite H3, H4. reflexivity. Qed.
Lemma verify_run (o : gops R F Fq2Fld (q12 F) (prepared F)) (vk : cpvkey F (q12 F) (prepared F)) (pf : bn_proof) x i0 i1 acc b a e :
  cpvk_ic _ _ _ vk = [i0; i1] -> l_inputs R fr_limbs fr F Fq2Fld (q12 F) (prepared F) o (to_extended F i0) [(x, i1)] = Some acc ->
  go_prepare _ _ _ _ _ o (cpf_b _ _ pf) = Some b -> co_into F (go_1 _ _ _ _ _ o) acc = Some a ->
  go_pairing _ _ _ _ _ o [(cpf_a _ _ pf, b); (a, cpvk_neg_gamma _ _ _ vk); (cpf_c _ _ pf, cpvk_neg_delta _ _ _ vk)] = Some e -> e = cpvk_alpha_beta _ _ _ vk ->
  l_verify R fr_limbs fr F Fq2Fld (q12 F) (prepared F) (q12_eqb F) o vk pf [x] = Done tt.
Proof.
  intros H0 H1 H2 H3 H4 H5. unfold l_verify. rewrite H0. cbn [length Nat.eqb negb combine]. rewrite H1. cbn [obind]. rewrite H2. cbn [obind]. rewrite H3. cbn [obind]. rewrite H4. cbn [obind].
  rewrite (proj2 (q12_eqb_eq F _ _) H5). reflexivity.
Qed.
(** A verifying key without losses, except in the coefficients of -gamma. *)
Theorem C74_prepare_refuted : exists vk : bn_key,
  on_curve g1_param_b (aff_pt F (cvk_alpha_g1 _ _ vk)) /\ on_curve (K := Fq2Fld) g2_param_b (aff_pt Fq2Fld (cvk_beta_g2 _ _ vk)) /\
  on_curve (K := Fq2Fld) g2_param_b (aff_pt Fq2Fld (cvk_gamma_g2 _ _ vk)) /\ on_curve (K := Fq2Fld) g2_param_b (aff_pt Fq2Fld (cvk_delta_g2 _ _ vk)) /\
  (exists pvk, limb_prepare_key ate_digits vk = Some pvk /\ plain_prepare_key ate_digits vk <> Some pvk).
Proof.
  destruct prepare_bad as (q & H & N).
  exists (mkCVk F Fq2Fld (aff_identity F) (aff_identity F) (aff_identity Fq2Fld) q (aff_identity F) (aff_identity Fq2Fld) []).
  cbn [cvk_alpha_g1 cvk_beta_g2 cvk_gamma_g2 cvk_delta_g2].
  split; [exact I|]. split; [exact I|]. split; [exact H|]. split; [exact I|].
  exists (mkCPvk F (q12 F) (prepared F) (q12_1 F) (limb_prepare ate_digits (to2 (aff_neg Fq2Fld q))) (limb_prepare ate_digits (to2 (aff_neg Fq2Fld (aff_identity Fq2Fld)))) []).
  split.
  - unfold limb_prepare_key. apply (prepare_run (limb_ops ate_digits) (mkCVk F Fq2Fld O1 O1 O2 q O1 O2 []) (Prep F [] true)); [reflexivity|apply limb_one; reflexivity|reflexivity|reflexivity].
  - unfold plain_prepare_key, c_prepare. cbn [cvk_alpha_g1 cvk_beta_g2 cvk_gamma_g2 cvk_delta_g2 cvk_ic]. unfold exact_pairing, miller.
    rewrite (o_multi F ate_digits) by reflexivity. cbn [bind]. rewrite one_fe. intros X. apply N.
    apply (f_equal (fun o => match o with Some v => cpvk_neg_gamma F (q12 F) (prepared F) v | None => limb_prepare ate_digits (to2 (aff_neg Fq2Fld q)) end)) in X.
    cbn [cpvk_neg_gamma] in X. symmetry. exact X.
Qed.
(** ** Cases that meet the hypotheses. *)
Definition neg_g1 : aff F := aff_neg F bn_g1.
Lemma fq_losses : fq_lost (k0 : F) = false /\ fq_lost (k1 : F) = false. Proof. vm_compute. auto. Qed.
Lemma fq2_losses : fq2_lost (k0 : Fq2Fld) = false /\ fq2_lost (k1 : Fq2Fld) = false. Proof. vm_compute. auto. Qed.
Lemma fq_inv_1 : fq_inv_ok (k1 : F) = true. Proof. apply fq_inv_val_1, fq_one_val. Qed.
Lemma fq2_inv_0 : fq2_inv_ok (k0 : Fq2Fld) = true. Proof. vm_compute. reflexivity. Qed.
Lemma fr_naf_0 : nafs_zero fr (fr_limbs (k0 : R)). Proof. exists 0%nat. vm_compute. reflexivity. Qed.
Lemma fr_naf_1 : nafs_one fr (fr_limbs (k1 : R)). Proof. exists 0%nat. vm_compute. reflexivity. Qed.
Lemma g1_y : g1_generator_y <> kopp g1_generator_y. Proof. apply keqb_neq. vm_compute. reflexivity. Qed.
(** [verify] of a key whose inputs cancel, on the proof made of identities: accepted. *)
Example C74_example_verify : guarded_verify ate_digits (mkCPvk F (q12 F) (prepared F) (q12_1 F) (Prep F [] true) (Prep F [] true) [bn_g1; neg_g1])
  (mkCProof F Fq2Fld O1 O2 O1) [k1] = Done tt.
Proof.
  destruct fq_losses as [L0 L1].
  apply (verify_run (guarded_ops ate_digits) (mkCPvk F (q12 F) (prepared F) (q12_1 F) (Prep F [] true) (Prep F [] true) [bn_g1; neg_g1]) (mkCProof F Fq2Fld O1 O2 O1) k1 bn_g1 neg_g1 (proj_identity F) (Prep F [] true) O1 (q12_1 F)).
  - reflexivity.
  - cbn [l_inputs]. unfold l_mul. cbn [guarded_ops go_1]. rewrite (t_scalar_1 F g1_param_b3 fq_lost fq_inv_ok fr L0 L1 _ _ fr_naf_1). cbn [obnd].
    assert (E : co_pp F (guarded_curve F g1_param_b3 fq_lost fq_inv_ok) (to_extended F bn_g1) (to_extended F neg_g1) = Some (proj_identity F)).
    { exact (t_cancel F g1_param_b3 fq_lost fq_inv_ok g1_generator_x g1_generator_y g1_y). }
    rewrite E. reflexivity.
  - reflexivity.
  - exact (t_into_id F g1_param_b3 fq_lost fq_inv_ok fq_inv_0).
  - apply guarded_one. reflexivity.
  - reflexivity.
Qed.
(** [prepare] of the key with gamma = delta = 1 and beta = 0, over a loop without digits. *)
Lemma neg_g2_ok : prepare_ok [] (aff_neg Fq2Fld bn_g2) = true. Proof. vm_compute. reflexivity. Qed.
Definition key_1 : bn_key := mkCVk F Fq2Fld bn_g1 O1 O2 bn_g2 bn_g1 bn_g2 [O1].
Definition prepared_1 : prepared F := exact_prepare_point [] (aff_neg Fq2Fld bn_g2).
Lemma prepare_1 : go_prepare _ _ _ _ _ (guarded_ops []) (aff_neg Fq2Fld bn_g2) = Some prepared_1.
Proof. cbn [guarded_ops go_prepare]. unfold when. rewrite neg_g2_ok. reflexivity. Qed.
Example C74_example_prepare : guarded_prepare_key [] key_1 = Some (mkCPvk F (q12 F) (prepared F) (q12_1 F) prepared_1 prepared_1 [O1]).
Proof. exact (prepare_run (guarded_ops []) key_1 (Prep F [] true) (q12_1 F) prepared_1 prepared_1 eq_refl (guarded_one [] [(bn_g1, Prep F [] true)] eq_refl) prepare_1 prepare_1). Qed.
(** An honest run over the empty circuit with two rows and the one public input 1, from [setup] to [verify]. *)
Definition circuit_1 : r1cs R := mkR1cs 2 [[]; []] [[]; []] [[]; []] [k1] [].
Definition params_1 : bn_params := mkCParams F Fq2Fld key_1 [O1] [] [O1] [O1] [O2].
Definition pvk_1 : cpvkey F (q12 F) (prepared F) := mkCPvk F (q12 F) (prepared F) (q12_1 F) prepared_1 prepared_1 [O1].
Lemma fr_inv_exact (a : R) : exact_inverse a -> fr_inv_ok a = true. Proof. intros H. apply opt_same, inverse_exact, H. Qed.
Lemma fr_val_1 : fr_val (k1 : R) = 1%Z. Proof. apply (proj1 (Z.eqb_eq _ _)). vm_compute. reflexivity. Qed.
Lemma fr_inv_1 : fr_inv_ok (k1 : R) = true.
Proof. apply fr_inv_exact. unfold exact_inverse. rewrite fr_val_1. apply (carry_free_one fr R_MOD). left; auto. Qed.
Lemma fft_1_ok : fft_ok 1 = true.
Proof. destruct C72_example as (_ & A & B & C & _). unfold fft_ok. rewrite (fr_inv_exact _ A), (fr_inv_exact _ B), (fr_inv_exact _ C). reflexivity. Qed.
Lemma fft_1 : exists f, fft_new R fr_two_adicity fr_root fr_gen 1 = Some f /\ fft_n f = (2 ^ 1)%nat.
Proof.
  destruct C72_example as ((f & E) & _). exists f. rewrite <- (fft_right 1 fft_1_ok). split; [exact E|]. exact (proj2 (limb_fft_n 1 f E)).
Qed.
Lemma sq_pow_ok (a : R) : fr_lost a = false -> pow_ok a (2 ^ 1) = true.
Proof.
  intros L. unfold pow_ok. rewrite (fr_pow_pow2 a 1) by lia. rewrite (s_squares_exact R fr_sq fr_lost fr_exact); [rewrite squares_pow; apply keqb_refl|].
  intros i Hi. assert (i = 0%nat) as -> by lia. exact L.
Qed.
Lemma fr_lost_1 : fr_lost (k1 : R) = false. Proof. vm_compute. reflexivity. Qed.
Section Zeros.
Variable K : Fld.
Add Field zeK : (kth K).
Local Open Scope fld_scope.
Lemma ze_z (di : K) : 1 * ((kpow 1 (2 ^ 1) - 1) * di) = 0. Proof. cbn [Nat.pow Nat.mul Nat.add kpow]. ring. Qed.
Lemma ze_e (a b i : K) : (0 * a + 0 * b + 0) * i = 0. Proof. ring. Qed.
Lemma ze_inv : kinvert (1 : K) = Some (kinv 1).
Proof. unfold kinvert. destruct (kis0 (1 : K)) eqn:Z; [|reflexivity]. exfalso. apply (k1_neq0 K), (keqb_eq K), Z. Qed.
Lemma ze_pow1 (a : K) : kpow a (2 ^ 0) = a. Proof. cbn [Nat.pow Nat.mul Nat.add kpow]. ring. Qed.
End Zeros.
Local Notation go := (guarded_ops []).
Lemma into1_0 : l_into1 R fr_limbs fr F Fq2Fld (q12 F) (prepared F) go bn_g1 k0 = Some O1.
Proof. destruct fq_losses as [L0 L1]. exact (t_mul_into_0 F g1_param_b3 fq_lost fq_inv_ok fr L0 L1 fq_inv_0 bn_g1 _ fr_naf_0). Qed.
Lemma into1_1 : l_into1 R fr_limbs fr F Fq2Fld (q12 F) (prepared F) go bn_g1 k1 = Some bn_g1.
Proof. destruct fq_losses as [L0 L1]. exact (t_mul_into_1 F g1_param_b3 fq_lost fq_inv_ok fr L0 L1 fq_inv_1 _ _ _ fr_naf_1). Qed.
Lemma into2_0 : l_into2 R fr_limbs fr F Fq2Fld (q12 F) (prepared F) go bn_g2 k0 = Some O2.
Proof. destruct fq2_losses as [L0 L1]. exact (t_mul_into_0 Fq2Fld g2_param_b3 fq2_lost fq2_inv_ok fr L0 L1 fq2_inv_0 bn_g2 _ fr_naf_0). Qed.
Lemma into2_1 : l_into2 R fr_limbs fr F Fq2Fld (q12 F) (prepared F) go bn_g2 k1 = Some bn_g2.
Proof. destruct fq2_losses as [L0 L1]. exact (t_mul_into_1 Fq2Fld g2_param_b3 fq2_lost fq2_inv_ok fr L0 L1 fq2_inv_1 _ _ _ fr_naf_1). Qed.
Lemma eval_1 lag i : l_eval R fr_limbs fr F Fq2Fld bn_g1 bn_g2 (q12 F) (prepared F) go 1 lag i k1 k0 [[]] [[]] [[]] = Some ([O1], [O1], [O2], [O1]).
Proof.
  unfold l_eval. cbn [length Nat.eqb andb l_eval_all]. unfold l_eval_one, eval_at_tau. cbn [eval_from obnd].
  assert (E : kis0 (k0 : R) = true) by (apply keqb_eq; reflexivity). rewrite E. cbn [obnd]. rewrite (ze_e R), into1_0. reflexivity.
Qed.
Lemma eval_0 lag i : l_eval R fr_limbs fr F Fq2Fld bn_g1 bn_g2 (q12 F) (prepared F) go 0 lag i k1 k0 [] [] [] = Some ([], [], [], []).
Proof. reflexivity. Qed.
Example C74_example_setup : guarded_setup [] circuit_1 k1 k0 k1 k1 k1 = Done (params_1, pvk_1).
Proof.
  destruct fft_1 as (f & E & N). destruct (C27_idft R fr_two_adicity fr_root fr_gen C27_scalar_field 1 f ltac:(unfold fr_two_adicity; lia) E (powers R k1 k1 2)) as (lag & EL & _).
  unfold guarded_setup, l_setup. cbn [circuit_1 r_m r_a r_b r_c r_x r_w length].
  assert (E1 : go_fft _ _ _ _ _ go (fft_log 2) = Some f) by (cbn [guarded_ops go_fft]; change (fft_log 2) with 1%nat; rewrite fft_1_ok; exact E).
  assert (E2 : go_invert _ _ _ _ _ go (k1 : R) = Some (Some (kinv k1))) by (cbn [guarded_ops go_invert]; rewrite fr_inv_1; unfold when; rewrite (ze_inv R); reflexivity).
  assert (E3 : go_z _ _ _ _ _ go f (k1 : R) = Some (ksub (kpow k1 (2 ^ 1)) k1)) by (cbn [guarded_ops go_z]; unfold fft_z; rewrite N, (sq_pow_ok _ fr_lost_1); reflexivity).
  rewrite E1. cbn [obind]. rewrite !E2. cbn [obind]. rewrite E3. cbn [obind].
  change (firstn (2 - 1) (powers R k1 k1 2)) with [k1 : R]. cbn [map_opt]. rewrite (ze_z R), into1_0. cbn [obind]. rewrite EL. cbn [obind].
  change (x_and_w R [[]; []] 1 0) with (Some ([[] : list (R * nat)], ([] : list (list (R * nat))))). cbn [obind]. rewrite eval_1, eval_0. cbn [obind].
  rewrite ?into1_1, ?into1_0, ?into2_0, ?into2_1. cbn [obind].
  change (l_prepare R F Fq2Fld (q12 F) (prepared F) go (mkCVk F Fq2Fld bn_g1 O1 O2 bn_g2 bn_g1 bn_g2 [O1])) with (guarded_prepare_key [] key_1).
  rewrite C74_example_prepare. reflexivity.
Qed.
Local Notation ga := (guarded_ops ate_digits).
Local Notation id1 := (proj_identity F). Local Notation id2 := (proj_identity Fq2Fld).
Lemma coset_z_ok (f : fft R) : fft_n f = (2 ^ 1)%nat -> pow_ok fr_gen (fft_n f) && fr_inv_ok (z_on_coset R f fr_gen) = true.
Proof.
  intros N. destruct C72_example as (_ & _ & _ & _ & Z & L). unfold z_on_coset. rewrite N. rewrite (sq_pow_ok fr_gen), (fr_inv_exact _ Z); [reflexivity|].
  specialize (L 0%nat ltac:(lia)). rewrite (ze_pow1 R) in L. exact L.
Qed.
Lemma quotient_1 (f : fft R) (E : fft_new R fr_two_adicity fr_root fr_gen 1 = Some f) (N : fft_n f = (2 ^ 1)%nat) a b c :
  exists q, l_quotient_poly R F Fq2Fld (q12 F) (prepared F) ga f a b c = Some q.
Proof.
  assert (Hk : (1 <= 1 <= fr_two_adicity)%nat) by (unfold fr_two_adicity; lia).
  pose proof (C27_idft R fr_two_adicity fr_root fr_gen C27_scalar_field 1 f Hk E) as I. pose proof (C27_coset_dft R fr_two_adicity fr_root fr_gen C27_scalar_field 1 f Hk E) as D.
  pose proof (C27_coset_idft R fr_two_adicity fr_root fr_gen C27_scalar_field 1 f Hk E) as CI.
  destruct (C27_vanishing R fr_two_adicity fr_root fr_gen C27_scalar_field 1 f Hk E) as (_ & _ & V).
  destruct (I a) as (pa & Ea & _ & La & _). destruct (I b) as (pb & Eb & _ & Lb & _). destruct (I c) as (pc & Ec & _ & Lc & _).
  destruct (D pa La) as (va & Fa & _). destruct (D pb Lb) as (vb & Fb & _). destruct (D pc Lc) as (vc & Fc & _).
  destruct (V (points_sub R (points_mul R va vb) vc) (C27_coset_disjoint 1 (proj2 Hk))) as (q & Q & _). destruct (CI q) as (h & H & _). exists h.
  unfold l_quotient_poly. rewrite Ea, Eb, Ec. cbn [obnd]. rewrite Fa, Fb, Fc. cbn [obnd]. cbn [guarded_ops go_divide]. rewrite (coset_z_ok f N). unfold when. rewrite Q. exact H.
Qed.
Lemma msm1_0 l c : Forall (fun p => p = O1) l -> l_msm1 R fr_limbs fr F Fq2Fld (q12 F) (prepared F) ga l c = Some id1.
Proof. destruct fq_losses as [L0 L1]. exact (t_msm F g1_param_b3 fq_lost fq_inv_ok fr L0 L1 fq_inv_0 fq_inv_1 l _). Qed.
Lemma msm2_0 l c : Forall (fun p => p = O2) l -> l_msm2 R fr_limbs fr F Fq2Fld (q12 F) (prepared F) ga l c = Some id2.
Proof. destruct fq2_losses as [L0 L1]. exact (t_msm Fq2Fld g2_param_b3 fq2_lost fq2_inv_ok fr L0 L1 fq2_inv_0 fq2_inv_1 l _). Qed.
Lemma mul1_0 p : l_mul F (go_1 _ _ _ _ _ ga) fr p (fr_limbs k0) = Some id1.
Proof. destruct fq_losses as [L0 L1]. exact (t_scalar_0 F g1_param_b3 fq_lost fq_inv_ok fr L0 L1 _ _ fr_naf_0). Qed.
Lemma scal1_0 p : l_scalar F (go_1 _ _ _ _ _ ga) fr p (fr_limbs k0) = Some id1.
Proof. destruct fq_losses as [L0 L1]. exact (t_scalar_0 F g1_param_b3 fq_lost fq_inv_ok fr L0 L1 _ _ fr_naf_0). Qed.
Lemma mul2_0 p : l_mul Fq2Fld (go_2 _ _ _ _ _ ga) fr p (fr_limbs k0) = Some id2.
Proof. destruct fq2_losses as [L0 L1]. exact (t_scalar_0 Fq2Fld g2_param_b3 fq2_lost fq2_inv_ok fr L0 L1 _ _ fr_naf_0). Qed.
Lemma pp1 p : co_pp F (go_1 _ _ _ _ _ ga) id1 p = Some p. Proof. exact (t_pp_l F g1_param_b3 fq_lost fq_inv_ok p). Qed.
Lemma pp2 p : co_pp Fq2Fld (go_2 _ _ _ _ _ ga) id2 p = Some p. Proof. exact (t_pp_l Fq2Fld g2_param_b3 fq2_lost fq2_inv_ok p). Qed.
Lemma pa1 p : co_pa F (go_1 _ _ _ _ _ ga) id1 p = Some (to_extended F p). Proof. exact (t_pa_l F g1_param_b3 fq_lost fq_inv_ok p). Qed.
Lemma pa2 p : co_pa Fq2Fld (go_2 _ _ _ _ _ ga) id2 p = Some (to_extended Fq2Fld p). Proof. exact (t_pa_l Fq2Fld g2_param_b3 fq2_lost fq2_inv_ok p). Qed.
Lemma pp1_r : co_pp F (go_1 _ _ _ _ _ ga) (to_extended F bn_g1) id1 = Some (to_extended F bn_g1).
Proof.
  cbn [guarded_ops go_1 guarded_curve co_pp]. unfold guard, add_projective_squares, proj_add, add_projective_point. rewrite (t_is_id F), orb_true_r.
  assert (E : proj_is_identity F (to_extended F bn_g1) = false) by (apply (t_neq F), (k1_neq0 F)). rewrite E. reflexivity.
Qed.
Lemma into_id1 : co_into F (go_1 _ _ _ _ _ ga) id1 = Some O1. Proof. exact (t_into_id F g1_param_b3 fq_lost fq_inv_ok fq_inv_0). Qed.
Lemma into_id2 : co_into Fq2Fld (go_2 _ _ _ _ _ ga) id2 = Some O2. Proof. exact (t_into_id Fq2Fld g2_param_b3 fq2_lost fq2_inv_ok fq2_inv_0). Qed.
Lemma into_g1 : co_into F (go_1 _ _ _ _ _ ga) (to_extended F bn_g1) = Some bn_g1. Proof. exact (t_into F g1_param_b3 fq_lost fq_inv_ok fq_inv_1 g1_generator_x g1_generator_y). Qed.
Lemma ob_run {A B} (x : option A) (k : A -> outcome B) a r : x = Some a -> k a = r -> obind x k = r.
Proof. intros -> H. exact H. Qed.
Definition proof_1 : bn_proof := mkCProof F Fq2Fld bn_g1 O2 O1.
Example C74_example_prove : guarded_prove params_1 circuit_1 k0 k0 = Done proof_1.
Proof.
  destruct fft_1 as (f & E & N). destruct (quotient_1 f E N [k0; k0] [k0; k0] [k0; k0]) as (q & Q).
  assert (B1 : Forall (fun p => p = O1) [O1]) by (apply Forall_cons; [reflexivity|apply Forall_nil]). assert (B0 : Forall (fun p => p = O1) []) by apply Forall_nil.
  assert (B2 : Forall (fun p => p = O2) [O2]) by (apply Forall_cons; [reflexivity|apply Forall_nil]). assert (B0' : Forall (fun p => p = O2) []) by apply Forall_nil.
  assert (E1 : go_fft _ _ _ _ _ ga (fft_log 2) = Some f) by (cbn [guarded_ops go_fft]; change (fft_log 2) with 1%nat; rewrite fft_1_ok; exact E).
  assert (E2 : evaluate_all R circuit_1 = Some ([k0; k0], [k0; k0], [k0; k0])) by reflexivity.
  unfold guarded_prove, l_prove. rewrite E2. cbn [circuit_1 r_m r_x r_w length params_1 cp_vk cp_h cp_l cp_a cp_b_g1 cp_b_g2 key_1 cvk_alpha_g1 cvk_beta_g1 cvk_beta_g2 cvk_delta_g1 cvk_delta_g2].
  apply (ob_run _ _ _ _ E1). apply (ob_run _ _ _ _ eq_refl). apply (ob_run _ _ _ _ Q). apply (ob_run _ _ _ _ (msm1_0 _ _ B1)).
  apply (ob_run _ _ _ _ (msm1_0 _ _ B0)). apply (ob_run _ _ _ _ (msm1_0 _ _ B1)). apply (ob_run _ _ ([] : list (aff F)) _ eq_refl). apply (ob_run _ _ _ _ (msm1_0 _ _ B0)).
  apply (ob_run _ _ _ _ (msm1_0 _ _ B1)). apply (ob_run _ _ ([] : list (aff F)) _ eq_refl). apply (ob_run _ _ _ _ (msm1_0 _ _ B0)).
  apply (ob_run _ _ _ _ (msm2_0 _ _ B2)). apply (ob_run _ _ ([] : list (aff Fq2Fld)) _ eq_refl). apply (ob_run _ _ _ _ (msm2_0 _ _ B0')).
  change (aff_is_identity F bn_g1 || aff_is_identity Fq2Fld bn_g2) with false. cbv beta iota.
  apply (ob_run _ _ _ _ (mul1_0 _)). apply (ob_run _ _ _ _ (pa1 _)). apply (ob_run _ _ _ _ (mul2_0 _)). apply (ob_run _ _ _ _ (pa2 _)).
  apply (ob_run _ _ _ _ (scal1_0 _)). apply (ob_run _ _ _ _ (mul1_0 _)). apply (ob_run _ _ _ _ (mul1_0 _)). apply (ob_run _ _ _ _ (pp1 _)). apply (ob_run _ _ _ _ (pp1 _)).
  apply (ob_run _ _ _ _ (pp1 _)). apply (ob_run _ _ _ _ pp1_r). apply (ob_run _ _ _ _ (scal1_0 _)). apply (ob_run _ _ _ _ (pp1 _)). apply (ob_run _ _ _ _ (pp1 _)).
  apply (ob_run _ _ _ _ (pp2 _)). change (to_extended Fq2Fld O2) with id2. apply (ob_run _ _ _ _ (pp2 _)). apply (ob_run _ _ _ _ (scal1_0 _)). apply (ob_run _ _ _ _ (pp1 _)).
  apply (ob_run _ _ _ _ (pp1 _)). apply (ob_run _ _ _ _ (pp1 _)). apply (ob_run _ _ _ _ into_g1). apply (ob_run _ _ _ _ into_id2). apply (ob_run _ _ _ _ into_id1). reflexivity.
Qed.
Example C74_example_run : limb_setup [] circuit_1 k1 k0 k1 k1 k1 = Done (params_1, pvk_1) /\ limb_prove params_1 circuit_1 k0 k0 = Done proof_1 /\ limb_verify [] pvk_1 proof_1 [] = Done tt.
Proof.
  assert (V : guarded_verify [] pvk_1 proof_1 [] = Done tt).
  { unfold guarded_verify, l_verify. cbn [pvk_1 proof_1 cpvk_ic length Nat.eqb negb combine l_inputs obind cpf_a cpf_b cpf_c cpvk_neg_gamma cpvk_neg_delta cpvk_alpha_beta].
    assert (E2 : go_prepare _ _ _ _ _ go O2 = Some (Prep F [] true)) by reflexivity. rewrite E2. cbn [obind]. change (to_extended F O1) with id1.
    assert (E3 : co_into F (go_1 _ _ _ _ _ go) id1 = Some O1) by exact into_id1. rewrite E3. cbn [obind].
    rewrite (guarded_one [] [(bn_g1, Prep F [] true); (O1, prepared_1); (O1, prepared_1)]) by reflexivity. cbn [obind].
    rewrite (proj2 (q12_eqb_eq F (q12_1 F) _) eq_refl). reflexivity. }
  split; [|split].
  - destruct (C74_setup_when_exact [] circuit_1 k1 k0 k1 k1 k1) as [X _]; [rewrite C74_example_setup; discriminate|]. rewrite X. exact C74_example_setup.
  - destruct (C74_prove_when_exact params_1 circuit_1 k0 k0) as [X _]; [rewrite C74_example_prove; discriminate|]. rewrite X. exact C74_example_prove.
  - destruct (C74_verify_when_exact [] pvk_1 proof_1 []) as [X _]; [rewrite V; discriminate|]. rewrite X. exact V.
Qed.
