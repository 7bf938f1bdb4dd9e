(** Property C73: Groth16 on the points of BN254 as the code computes it, from [setup] to [verify].
    Specification: CurveSpec.v ([pt_add], [pt_zmul], [pt_sum]), Groth16Spec.v (circuits), the pairing of C62. *)
From Coq Require Import ZArith List Bool Lia.
From Verif Require Import LimbModel FieldModel FieldProofs FieldMore FieldSpec Algebra GroupLib ExtModel ExtParams ExtFrob CurveSpec CurveGroup CurveAb CurveParams CurveOrder
  WeierModel WeierProofs PolySpec PolyModel PolyProofs ClaimsPoly
  R1csModel R1csSpec Groth16Model Groth16Spec ClaimsGroth16 ClaimsCurve Groth16Points Groth16PointsProofs.
From Verif Require Import PairingModel FinalExp PairingRefine PairingFinal PairingProofs PairBn G2Order PairBilin ClaimsPairing ClaimsBilinear Groth16Bn ClaimsGroth16Bn.
From Verif Require Import WeierModel WeierProofs.
Import ListNotations.
Local Open Scope fld_scope.

(** The limbs of a scalar. *)
Definition fr_limbs (s : FrFld) : l4 := lf_limbs R_MOD s.
(** One Rust type, two records of the model: the points of WeierModel.v as those of PairingModel.v. *)
Definition to1 (p : aff FqFld) : affine1 FqFld := Aff1 FqFld (ax p) (ay p) (ainf p).
Definition to2 (q : aff Fq2Fld) : affine2 FqFld := Aff2 FqFld (ax q) (ay q) (ainf q).
(** g2.rs:267-314 [G2PairingAffine::from]; pairing.rs:37-83 [multi_miller_loop] and [final_exp]. *)
Definition bn_prepare_point (q : aff Fq2Fld) : prepared FqFld := ate_prepare (to2 q).
Definition bn_multi_pairing (l : list (aff FqFld * prepared FqFld)) : option (q12 FqFld) :=
  bind (ate_multi (map (fun c => (to1 (fst c), snd c)) l)) fe.
(** The generators of g1.rs and g2.rs. *)
Definition bn_g1 : aff FqFld := Aff g1_generator_x g1_generator_y false.
Definition bn_g2 : aff Fq2Fld := Aff (F := Fq2Fld) g2_generator_x g2_generator_y false.
Definition bn_key := cvkey FqFld Fq2Fld.
Definition bn_params := cparams FqFld Fq2Fld.
Definition bn_proof := cproof FqFld Fq2Fld.
Definition bn_setup := c_setup FrFld fr_limbs fr fr_two_adicity fr_root fr_gen FqFld Fq2Fld g1_param_b3 g2_param_b3 bn_g1 bn_g2 (q12 FqFld) (prepared FqFld) bn_prepare_point bn_multi_pairing.
Definition bn_prove := c_prove FrFld fr_limbs fr fr_two_adicity fr_root fr_gen FqFld Fq2Fld g1_param_b3 g2_param_b3.
Definition bn_prepare := c_prepare FqFld Fq2Fld (q12 FqFld) (prepared FqFld) bn_prepare_point bn_multi_pairing.
Definition bn_verify := c_verify FrFld fr_limbs fr FqFld Fq2Fld g1_param_b3 (q12 FqFld) (prepared FqFld) bn_prepare_point bn_multi_pairing (q12_eqb FqFld).
(** The point of an affine value. *)
Definition point1 (p : aff FqFld) : point FqFld := aff_pt FqFld p.
Definition point2 (q : aff Fq2Fld) : point Fq2Fld := aff_pt Fq2Fld q.

Lemma fr_limbs_rep s : represents R_MOD (fr_limbs s) (fr_val s).
Proof. apply represents_rep. exact (lf_rep fr R_MOD fr_ok s). Qed.

Lemma pair_inv P Q e : ate_pairing P Q = Some e -> exists f, ate_multi [(P, ate_prepare Q)] = Some f /\ fe f = Some e.
Proof.
  change (ate_pairing P Q) with (bind (ate_multi [(P, ate_prepare Q)]) fe). destruct (ate_multi [(P, ate_prepare Q)]) as [f|]; [|discriminate].
  intros E. exists f. split; [reflexivity|exact E].
Qed.
Lemma multi_nil : exists f, ate_multi [] = Some f /\ fe f = Some (q12_1 FqFld).
Proof.
  destruct (pair_inv (Aff1 FqFld k0 k1 true) (Aff2 FqFld (q2_0 FqFld) (q2_1 FqFld) true) (gt_identity FqFld)) as (f & E & H).
  - apply C53_identity_pairs_to_one. left. reflexivity.
  - rewrite C52_identity_pairs_are_skipped in E by (left; reflexivity). exists f. split; [exact E|exact H].
Qed.
Definition rprep (Q : prepared FqFld) (y : gA2 bn254_groups) : Prop := exists q, Q = bn_prepare_point q /\ point2 q = pt2 y.
Lemma point1_eq p : point1 p = aff1_point (to1 p). Proof. reflexivity. Qed.
Lemma point2_eq p : point2 p = aff2_point (to2 p). Proof. reflexivity. Qed.
Lemma bn_multi_ok l (L : list (gA1 bn254_groups * gA2 bn254_groups)) :
  Forall2 (fun c g => ra FqFld (gA1 bn254_groups) pt1 (fst c) (fst g) /\ rprep (snd c) (snd g)) l L ->
  bn_multi_pairing l = Some (ptT (asum (map (fun g => gpair bn254_groups (fst g) (snd g)) L))).
Proof.
  intros H. assert (E : exists f, ate_multi (map (fun c => (to1 (fst c), snd c)) l) = Some f /\ fe f = Some (ptT (asum (map (fun g => gpair bn254_groups (fst g) (snd g)) L)))).
  { induction H as [|[p Q] [x y] l L [Hp (q & EQ & Hq)] HS (f & E & Hf)]; [exact multi_nil|]. cbn [fst snd] in Hp, EQ, Hq |- *.
    destruct C63_library_groups as (_ & _ & TM & _ & _ & PR & _).
    destruct (pair_inv _ _ _ (PR x y (to1 p) (to2 q) (eq_sym Hp) (eq_sym Hq))) as (f' & E' & Hf').
    exists (q12_mul FqFld f' f). split.
    - cbn [map]. rewrite EQ. exact (C52_pairs_multiply [_] _ f' f E' E).
    - cbn [map]. etransitivity; [exact (C54_multiplicative _ _ _ _ Hf' Hf)|]. apply (f_equal Some). symmetry. apply TM. }
  destruct E as (f & E & Hf). unfold bn_multi_pairing. rewrite E. exact Hf.
Qed.
Local Notation G := bn254_groups.
Lemma pt1_on x : on_curve g1_param_b (pt1 x). Proof. exact (cval_on FqFld g1_param_b x). Qed.
Lemma pt2_on x : on_curve (K := Fq2Fld) g2_param_b (pt2 x). Proof. exact (cval_on Fq2Fld g2_param_b (g2s x)). Qed.
Lemma pt1_add x y : pt1 (aadd x y) = pt_add (pt1 x) (pt1 y). Proof. apply C63_library_groups. Qed.
Lemma pt2_add x y : pt2 (aadd x y) = pt_add (pt2 x) (pt2 y). Proof. apply C63_library_groups. Qed.
Lemma pt1_mul x s : pt1 (gmul1 G x s) = pt_zmul (fr_val s) (pt1 x). Proof. apply C63_library_groups. Qed.
Lemma pt2_mul x s : pt2 (gmul2 G x s) = pt_zmul (fr_val s) (pt2 x). Proof. apply C63_library_groups. Qed.
Lemma pt1_0 : pt1 a0 = Inf. Proof. reflexivity. Qed.
Lemma pt2_0 : pt2 a0 = Inf. Proof. reflexivity. Qed.
Lemma pt2_neg x : pt2 (aneg x) = pt_neg (pt2 x). Proof. reflexivity. Qed.
Lemma pt1_inj x y : pt1 x = pt1 y -> x = y. Proof. apply cpt_eq. Qed.
Lemma pt2_inj x y : pt2 x = pt2 y -> x = y. Proof. intros E. apply g2s_eq, cpt_eq. exact E. Qed.
Lemma ptT_inj x y : ptT x = ptT y -> x = y. Proof. apply tval_inj. Qed.
Lemma eq1_inf x : geq1 G x a0 = true <-> pt1 x = Inf.
Proof. rewrite (bg_eq1 G C63_groups). split; [intros ->; exact pt1_0|]. intros E. apply pt1_inj. exact E. Qed.
Lemma eq2_inf x : geq2 G x a0 = true <-> pt2 x = Inf.
Proof. rewrite (bg_eq2 G C63_groups). split; [intros ->; exact pt2_0|]. intros E. apply pt2_inj. exact E. Qed.
Lemma bn_fr : bn_field fr R_MOD. Proof. left. split; reflexivity. Qed.
Lemma prep_rel q y : ra Fq2Fld (gA2 G) pt2 q y -> rprep (bn_prepare_point q) y.
Proof. intros H. exists q. split; [reflexivity|exact H]. Qed.
Lemma eqT_rel z z' : q12_eqb FqFld (ptT z) (ptT z') = geqT G z z'. Proof. reflexivity. Qed.
Lemma gen1_rel : ra FqFld (gA1 G) pt1 bn_g1 (gg1 G). Proof. symmetry. apply C63_library_groups. Qed.
Lemma gen2_rel : ra Fq2Fld (gA2 G) pt2 bn_g2 (gg2 G). Proof. symmetry. apply C63_library_groups. Qed.

Definition ra1 := ra FqFld (gA1 G) pt1. Definition ra2 := ra Fq2Fld (gA2 G) pt2.
Definition vk_rel : bn_key -> vkey (gA1 G) (gA2 G) -> Prop := rvk FqFld Fq2Fld (gA1 G) (gA2 G) pt1 pt2.
Definition pk_rel : bn_params -> params (gA1 G) (gA2 G) -> Prop := rpk FqFld Fq2Fld (gA1 G) (gA2 G) pt1 pt2.
Definition pvk_rel := rpvk FqFld (gA1 G) (gA2 G) (gAT G) pt1 (q12 FqFld) (prepared FqFld) rprep ptT.
Definition pf_rel : bn_proof -> proof (gA1 G) (gA2 G) -> Prop := rpf FqFld Fq2Fld (gA1 G) (gA2 G) pt1 pt2.
Lemma bn_setup_agree cs alpha beta gamma delta tau :
  agree (fun c g => pk_rel (fst c) (fst g) /\ pvk_rel (snd c) (snd g)) (bn_setup cs alpha beta gamma delta tau)
    (g_setup fr_two_adicity fr_root fr_gen G cs alpha beta gamma delta tau).
Proof.
  exact (setup_agree FrFld fr_limbs fr_val fr R_MOD bn_fr fr_limbs_rep fr_two_adicity fr_root fr_gen FqFld Fq2Fld g1_param_b g1_param_b3 g2_param_b g2_param_b3 g1_ok g2_ok
    (gA1 G) (gA2 G) (gAT G) pt1 pt2 (gmul1 G) (gmul2 G) (gpair G) (gg1 G) (gg2 G) pt1_on pt2_on pt1_0 pt2_0 pt1_mul pt2_mul pt2_neg bn_g1 bn_g2 gen1_rel gen2_rel
    (q12 FqFld) (prepared FqFld) bn_prepare_point bn_multi_pairing rprep ptT prep_rel bn_multi_ok cs alpha beta gamma delta tau).
Qed.
Lemma bn_prove_agree c g cs r s : pk_rel c g -> short FqFld Fq2Fld c -> agree pf_rel (bn_prove c cs r s) (g_prove fr_two_adicity fr_root fr_gen G g cs r s).
Proof.
  exact (prove_agree FrFld fr_limbs fr_val fr R_MOD bn_fr fr_limbs_rep fr_two_adicity fr_root fr_gen FqFld Fq2Fld g1_param_b g1_param_b3 g2_param_b g2_param_b3 g1_ok g2_ok
    (gA1 G) (gA2 G) pt1 pt2 (gmul1 G) (gmul2 G) (geq1 G) (geq2 G) pt1_on pt2_on pt1_0 pt2_0 pt1_add pt2_add pt1_mul pt2_mul eq1_inf eq2_inf c g cs r s).
Qed.
Lemma bn_prepare_agree c g : vk_rel c g -> exists p, bn_prepare c = Some p /\ pvk_rel p (g_prepare G g).
Proof.
  exact (prepare_agree FqFld Fq2Fld g2_param_b g2_param_b3 g2_ok (gA1 G) (gA2 G) (gAT G) pt1 pt2 (gpair G) pt2_neg
    (q12 FqFld) (prepared FqFld) bn_prepare_point bn_multi_pairing rprep ptT prep_rel bn_multi_ok c g).
Qed.
Lemma bn_verify_agree c g pf gpf xs : pvk_rel c g -> pf_rel pf gpf -> bn_verify c pf xs = g_verify G g gpf xs.
Proof.
  exact (verify_agree FrFld fr_limbs fr_val fr R_MOD bn_fr fr_limbs_rep FqFld Fq2Fld g1_param_b g1_param_b3 g1_ok
    (gA1 G) (gA2 G) (gAT G) pt1 pt2 (gmul1 G) (gpair G) (geqT G) pt1_on pt1_add pt1_mul
    (q12 FqFld) (prepared FqFld) bn_prepare_point bn_multi_pairing (q12_eqb FqFld) rprep ptT prep_rel bn_multi_ok eqT_rel c g pf gpf xs).
Qed.

(** Lengths of the key. *)
Lemma map_opt_length {X Y} (f : X -> option Y) l l' : map_opt f l = Some l' -> length l' = length l.
Proof.
  revert l'. induction l as [|x l IH]; cbn; intros l' E; [injection E as <-; reflexivity|]. destruct (f x); [|discriminate].
  destruct (map_opt f l) as [t|]; [|discriminate]. injection E as <-. cbn. rewrite (IH t eq_refl). reflexivity.
Qed.
Section Lengths.
Variables (F : Fld) (limbs : F -> l4) (P : fparams) (two_adicity : nat) (root gen : F) (K1 K2 : Fld) (b1 : K1) (b2 : K2) (g1 : aff K1) (g2 : aff K2).
Variables (T prep : Type) (prepare_point : aff K2 -> prep) (multi_pairing : list (aff K1 * prep) -> option T).
Lemma c_eval_length len pt inv alpha beta a b c x y z e : c_eval F limbs P K1 K2 b1 b2 g1 g2 len pt inv alpha beta a b c = Some (x, y, z, e) ->
  length x = len /\ length y = len /\ length z = len /\ length e = len.
Proof.
  unfold c_eval. destruct (_ && _) eqn:E; [|discriminate]. apply andb_true_iff in E as [E E3]. apply andb_true_iff in E as [E1 E2].
  apply Nat.eqb_eq in E1, E2, E3. revert len b c x y z e E1 E2 E3. induction a as [|at_ a IH]; intros len b c x y z e E1 E2 E3 E.
  - cbn in E. injection E as <- <- <- <-. subst len. cbn. auto.
  - destruct b as [|bt b]; [cbn in *; congruence|]. destruct c as [|ct c]; [cbn in *; congruence|]. cbn [c_eval_all] in E.
    destruct (c_eval_one _ _ _ _ _ _ _ _ _ _ _ _ _ _ _ _) as [[[[p q] q'] e']|]; [|discriminate].
    destruct (c_eval_all _ _ _ _ _ _ _ _ _ _ _ _ _ _ _ _) as [[[[ps qs] qs'] es]|] eqn:EA; [|discriminate]. injection E as <- <- <- <-.
    destruct len as [|len]; [discriminate|]. cbn in E1, E2, E3. injection E1 as E1. injection E2 as E2. injection E3 as E3.
    destruct (IH len b c ps qs qs' es E1 E2 E3 EA) as (H1 & H2 & H3 & H4). cbn. auto.
Qed.
Lemma powers_length c t n : length (powers F c t n) = n.
Proof. revert c. induction n as [|n IH]; intros c; [reflexivity|]. cbn. rewrite IH. reflexivity. Qed.
Lemma c_setup_length cs alpha beta gamma delta tau pk vk : c_setup F limbs P two_adicity root gen K1 K2 b1 b2 g1 g2 T prep prepare_point multi_pairing cs alpha beta gamma delta tau = Done (pk, vk) ->
  let n := (length (r_x cs) + length (r_w cs))%nat in
  length (cp_h _ _ pk) = (r_m cs - 1)%nat /\ length (cp_l _ _ pk) = length (r_w cs) /\ length (cp_a _ _ pk) = n /\ length (cp_b_g1 _ _ pk) = n /\ length (cp_b_g2 _ _ pk) = n /\
  length (cvk_ic _ _ (cp_vk _ _ pk)) = length (r_x cs).
Proof.
  unfold c_setup. destruct (fft_new _ _ _ _ _) as [fft|]; [|discriminate]. cbn [obind]. destruct (kinvert gamma) as [gi|]; [|discriminate]. destruct (kinvert delta) as [di|]; [|discriminate].
  cbv zeta. destruct (map_opt _ _) as [h|] eqn:EH; [|discriminate]. cbn [obind]. destruct (idft _ _ _) as [lag|]; [|discriminate]. cbn [obind].
  destruct (x_and_w F (r_a cs) _ _) as [[a_x a_w]|]; [|discriminate]. cbn [obind]. destruct (x_and_w F (r_b cs) _ _) as [[b_x b_w]|]; [|discriminate]. cbn [obind].
  destruct (x_and_w F (r_c cs) _ _) as [[c_x c_w]|]; [|discriminate]. cbn [obind].
  destruct (c_eval _ _ _ _ _ _ _ _ _ (length (r_x cs)) _ _ _ _ _ _ _) as [[[[a_i b1_i] b2_i] ic]|] eqn:E1; [|discriminate]. cbn [obind].
  destruct (c_eval _ _ _ _ _ _ _ _ _ (length (r_w cs)) _ _ _ _ _ _ _) as [[[[a_u b1_u] b2_u] lq]|] eqn:E2; [|discriminate]. cbn [obind].
  do 6 (match goal with |- obind ?o _ = _ -> _ => destruct o; [|discriminate]; cbn [obind] end). destruct (c_prepare _ _ _ _ _ _ _) as [pvk|]; [|discriminate]. cbn [obind].
  intros E. injection E as <- <-. cbn [cp_h cp_l cp_a cp_b_g1 cp_b_g2 cp_vk cvk_ic].
  destruct (c_eval_length _ _ _ _ _ _ _ _ _ _ _ _ E1) as (H1 & H2 & H3 & H4), (c_eval_length _ _ _ _ _ _ _ _ _ _ _ _ E2) as (I1 & I2 & I3 & I4).
  rewrite !app_length, (map_opt_length _ _ _ EH), firstn_length, powers_length. repeat split; lia.
Qed.
Lemma c_setup_prepare cs alpha beta gamma delta tau pk vk : c_setup F limbs P two_adicity root gen K1 K2 b1 b2 g1 g2 T prep prepare_point multi_pairing cs alpha beta gamma delta tau = Done (pk, vk) ->
  c_prepare K1 K2 T prep prepare_point multi_pairing (cp_vk _ _ pk) = Some vk.
Proof.
  unfold c_setup. destruct (fft_new _ _ _ _ _) as [fft|]; [|discriminate]. cbn [obind]. destruct (kinvert gamma) as [gi|]; [|discriminate]. destruct (kinvert delta) as [di|]; [|discriminate].
  cbv zeta. destruct (map_opt _ _) as [h|]; [|discriminate]. cbn [obind]. destruct (idft _ _ _) as [lag|]; [|discriminate]. cbn [obind].
  destruct (x_and_w F (r_a cs) _ _) as [[a_x a_w]|]; [|discriminate]. cbn [obind]. destruct (x_and_w F (r_b cs) _ _) as [[b_x b_w]|]; [|discriminate]. cbn [obind].
  destruct (x_and_w F (r_c cs) _ _) as [[c_x c_w]|]; [|discriminate]. cbn [obind].
  destruct (c_eval _ _ _ _ _ _ _ _ _ (length (r_x cs)) _ _ _ _ _ _ _) as [[[[a_i b1_i] b2_i] ic]|]; [|discriminate]. cbn [obind].
  destruct (c_eval _ _ _ _ _ _ _ _ _ (length (r_w cs)) _ _ _ _ _ _ _) as [[[[a_u b1_u] b2_u] lq]|]; [|discriminate]. cbn [obind].
  do 6 (match goal with |- obind ?o _ = _ -> _ => destruct o; [|discriminate]; cbn [obind] end). destruct (c_prepare _ _ _ _ _ _ _) as [pvk|] eqn:EP; [|discriminate]. cbn [obind].
  intros E. injection E as <- <-. exact EP.
Qed.
Variables (A1 A2 AT : AbGrp) (mul1 : A1 -> F -> A1) (mul2 : A2 -> F -> A2) (pair : A1 -> A2 -> AT) (x1 : A1) (x2 : A2).
Lemma setup_vk cs alpha beta gamma delta tau pk vk : setup F two_adicity root gen A1 A2 AT mul1 mul2 pair x1 x2 cs alpha beta gamma delta tau = Done (pk, vk) ->
  let key := p_vk _ _ pk in
  vk_alpha_g1 _ _ key = mul1 x1 alpha /\ vk_beta_g1 _ _ key = mul1 x1 beta /\ vk_beta_g2 _ _ key = mul2 x2 beta /\ vk_gamma_g2 _ _ key = mul2 x2 gamma /\
  vk_delta_g1 _ _ key = mul1 x1 delta /\ vk_delta_g2 _ _ key = mul2 x2 delta.
Proof.
  unfold setup. destruct (fft_new _ _ _ _ _) as [fft|]; [|discriminate]. cbn [obind]. destruct (kinvert gamma) as [gi|]; [|discriminate]. destruct (kinvert delta) as [di|]; [|discriminate].
  cbv zeta. destruct (idft _ _ _) as [lag|]; [|discriminate]. cbn [obind].
  destruct (x_and_w F (r_a cs) _ _) as [[a_x a_w]|]; [|discriminate]. cbn [obind]. destruct (x_and_w F (r_b cs) _ _) as [[b_x b_w]|]; [|discriminate]. cbn [obind].
  destruct (x_and_w F (r_c cs) _ _) as [[c_x c_w]|]; [|discriminate]. cbn [obind].
  destruct (eval _ _ _ _ _ _ _ (length (r_x cs)) _ _ _ _ _ _ _) as [[[[a_i b1_i] b2_i] ic]|]; [|discriminate]. cbn [obind].
  destruct (eval _ _ _ _ _ _ _ (length (r_w cs)) _ _ _ _ _ _ _) as [[[[a_u b1_u] b2_u] lq]|]; [|discriminate]. cbn [obind].
  intros E. injection E as <- <-. cbn [p_vk vk_alpha_g1 vk_beta_g1 vk_beta_g2 vk_gamma_g2 vk_delta_g1 vk_delta_g2]. repeat split.
Qed.
(** The prover returns points in the form [to_affine] gives them. *)
Definition canon {K : Fld} (p : point K) : aff K := match p with Inf => aff_identity K | Pt x y => Aff x y false end.
Lemma to_affine_canon (K : Fld) (p : proj K) : to_affine K p = canon (proj_pt K p).
Proof.
  unfold to_affine, kinvert, kis0, proj_pt. destruct (keqb (jz p) k0) eqn:E; [reflexivity|]. cbn [canon].
  rewrite !(Field_theory.Fdiv_def (kth K)). reflexivity.
Qed.
Lemma canon_pt (K : Fld) (p : proj K) : canon (aff_pt K (to_affine K p)) = to_affine K p.
Proof. destruct (C19_conversions K) as (_ & E & _). rewrite E. symmetry. apply to_affine_canon. Qed.
Lemma c_prove_canon pk cs r s pf : c_prove F limbs P two_adicity root gen K1 K2 b1 b2 pk cs r s = Done pf ->
  pf = mkCProof K1 K2 (canon (aff_pt K1 (cpf_a _ _ pf))) (canon (aff_pt K2 (cpf_b _ _ pf))) (canon (aff_pt K1 (cpf_c _ _ pf))).
Proof.
  unfold c_prove. cbv zeta. repeat (match goal with |- obind ?o _ = _ -> _ => destruct o as [?|]; [|discriminate]; cbn [obind] | |- (let '(_, _) := ?x in _) = _ -> _ => destruct x end).
  destruct (_ || _); [discriminate|]. repeat (match goal with |- obind ?o _ = _ -> _ => destruct o as [?|]; [|discriminate]; cbn [obind] end).
  intros E. injection E as <-. cbn [cpf_a cpf_b cpf_c]. rewrite !canon_pt. reflexivity.
Qed.
End Lengths.
(** The wires of the circuit are indexed by machine words. *)
Definition fits (cs : r1cs FrFld) : Prop := (Z.of_nat (length (r_x cs) + length (r_w cs)) < 2 ^ 64)%Z.
Lemma setup_short k cs alpha beta gamma delta tau pk vk : (1 <= k <= 28)%nat -> r_m cs = (2 ^ k)%nat -> fits cs ->
  bn_setup cs alpha beta gamma delta tau = Done (pk, vk) -> short FqFld Fq2Fld pk.
Proof.
  intros Hk Hm HF E. destruct (c_setup_length _ _ _ _ _ _ _ _ _ _ _ _ _ _ _ _ _ _ _ _ _ _ _ _ E) as (H1 & H2 & H3 & H4 & H5 & _). unfold fits in HF.
  assert (H : (Z.of_nat (r_m cs) < 2 ^ 64)%Z).
  { rewrite Hm, Nat2Z.inj_pow. apply Z.pow_lt_mono_r; lia. }
  intros n [<-|[<-|[<-|[<-|[<-|[]]]]]]; lia.
Qed.

(** Every step agrees with the step in groups (C34 to C36, C59, C63): the same errors, the same panics,
    and points that are the elements the groups say. *)
Theorem C73_refines :
  (forall cs alpha beta gamma delta tau, agree (fun c g => pk_rel (fst c) (fst g) /\ pvk_rel (snd c) (snd g)) (bn_setup cs alpha beta gamma delta tau)
     (g_setup fr_two_adicity fr_root fr_gen G cs alpha beta gamma delta tau)) /\
  (forall c g cs r s, pk_rel c g -> short FqFld Fq2Fld c -> agree pf_rel (bn_prove c cs r s) (g_prove fr_two_adicity fr_root fr_gen G g cs r s)) /\
  (forall c g, vk_rel c g -> exists p, bn_prepare c = Some p /\ pvk_rel p (g_prepare G g)) /\
  (forall c g pf gpf xs, pvk_rel c g -> pf_rel pf gpf -> bn_verify c pf xs = g_verify G g gpf xs).
Proof. exact (conj bn_setup_agree (conj bn_prove_agree (conj bn_prepare_agree bn_verify_agree))). Qed.
(** Completeness. *)
Theorem C73_completeness k cs0 alpha beta gamma delta tau cs r t :
  (1 <= k <= 28)%nat -> wf_cs cs0 -> fits cs0 -> r_m cs0 = (2 ^ k)%nat -> usable (2 ^ k) gamma delta tau ->
  wf_cs cs -> same_circuit cs0 cs -> is_sat FrFld cs = Some true ->
  exists pk vk pf, bn_setup cs0 alpha beta gamma delta tau = Done (pk, vk) /\ bn_prove pk cs r t = Done pf /\ bn_verify vk pf (tl (r_x cs)) = Done tt.
Proof.
  intros Hk W0 HF Hm HU Wc SC SAT. destruct (C63_completeness k cs0 alpha beta gamma delta tau cs r t Hk W0 Hm HU Wc SC SAT) as (gpk & gvk & gpf & HS & HP & HV).
  pose proof (bn_setup_agree cs0 alpha beta gamma delta tau) as AS. rewrite HS in AS. destruct (bn_setup cs0 alpha beta gamma delta tau) as [[pk vk]| |] eqn:ES; try contradiction.
  destruct AS as [Rpk Rvk]. cbn [fst snd] in Rpk, Rvk. pose proof (bn_prove_agree pk gpk cs r t Rpk (setup_short k cs0 _ _ _ _ _ pk vk Hk Hm HF ES)) as AP. rewrite HP in AP.
  destruct (bn_prove pk cs r t) as [pf| |] eqn:EP; try contradiction. exists pk, vk, pf. split; [reflexivity|]. split; [exact EP|].
  rewrite (bn_verify_agree vk gvk pf gpf _ Rvk AP). exact HV.
Qed.
(** The points of the key. *)
Theorem C73_key_points cs alpha beta gamma delta tau pk vk : bn_setup cs alpha beta gamma delta tau = Done (pk, vk) ->
  let key := cp_vk _ _ pk in
  let G1 := Pt g1_generator_x g1_generator_y in
  point1 (cvk_alpha_g1 _ _ key) = pt_zmul (fr_val alpha) G1 /\ point1 (cvk_beta_g1 _ _ key) = pt_zmul (fr_val beta) G1 /\ point2 (cvk_beta_g2 _ _ key) = pt_zmul (fr_val beta) g2_base /\
  point2 (cvk_gamma_g2 _ _ key) = pt_zmul (fr_val gamma) g2_base /\ point1 (cvk_delta_g1 _ _ key) = pt_zmul (fr_val delta) G1 /\ point2 (cvk_delta_g2 _ _ key) = pt_zmul (fr_val delta) g2_base /\
  bn_prepare key = Some vk.
Proof.
  intros E. pose proof (bn_setup_agree cs alpha beta gamma delta tau) as AS. rewrite E in AS. cbv zeta.
  destruct (g_setup fr_two_adicity fr_root fr_gen G cs alpha beta gamma delta tau) as [[gpk gvk]| |] eqn:ES; try contradiction.
  destruct AS as [(RV & _) _]. cbn [fst snd] in RV. destruct RV as (H1 & H2 & H3 & H4 & H5 & H6 & _).
  destruct (setup_vk _ _ _ _ _ _ _ _ _ _ _ _ _ _ _ _ _ _ _ _ ES) as (V1 & V2 & V3 & V4 & V5 & V6). rewrite V1 in H1. rewrite V2 in H2. rewrite V3 in H3. rewrite V4 in H4. rewrite V5 in H5. rewrite V6 in H6.
  destruct C63_library_groups as (_ & _ & _ & _ & _ & _ & _ & _ & G1E & G2E). rewrite <- G1E, <- G2E.
  split; [rewrite <- pt1_mul; exact H1|]. split; [rewrite <- pt1_mul; exact H2|]. split; [rewrite <- pt2_mul; exact H3|]. split; [rewrite <- pt2_mul; exact H4|].
  split; [rewrite <- pt1_mul; exact H5|]. split; [rewrite <- pt2_mul; exact H6|]. exact (c_setup_prepare _ _ _ _ _ _ _ _ _ _ _ _ _ _ _ _ _ _ _ _ _ _ _ _ E).
Qed.
(** Zero knowledge, down to the coordinates of the proof: for a key and public inputs there is one table of proofs such
    that for every witness the blinding factors and the entries of the table correspond one to one. *)
Lemma aff_canon (K : Fld) (p : point K) : aff_pt K (canon p) = p. Proof. destruct p; reflexivity. Qed.
Definition out_of (sim : FrFld -> FrFld -> FrFld) (x y : FrFld) : bn_proof :=
  mkCProof FqFld Fq2Fld (canon (pt_zmul (fr_val x) (Pt g1_generator_x g1_generator_y))) (canon (pt_zmul (fr_val y) g2_base))
    (canon (pt_zmul (fr_val (sim x y)) (Pt g1_generator_x g1_generator_y))).
Theorem C73_zero_knowledge k cs0 alpha beta gamma delta tau pk vk xs :
  (1 <= k <= 28)%nat -> wf_cs cs0 -> fits cs0 -> r_m cs0 = (2 ^ k)%nat ->
  bn_setup cs0 alpha beta gamma delta tau = Done (pk, vk) -> usable (2 ^ k) gamma delta tau ->
  exists out : FrFld -> FrFld -> bn_proof, forall cs, wf_cs cs -> same_circuit cs0 cs -> is_sat FrFld cs = Some true -> tl (r_x cs) = xs ->
    (forall x y, exists r t, forall r' t', bn_prove pk cs r' t' = Done (out x y) <-> r' = r /\ t' = t) /\
    (forall r t, exists x y, bn_prove pk cs r t = Done (out x y)).
Proof.
  intros Hk W0 HF Hm HS HU. pose proof (bn_setup_agree cs0 alpha beta gamma delta tau) as AS. rewrite HS in AS.
  destruct (g_setup fr_two_adicity fr_root fr_gen G cs0 alpha beta gamma delta tau) as [[gpk gvk]| |] eqn:ES; try contradiction. destruct AS as [RP _]. cbn [fst] in RP.
  destruct (C63_zero_knowledge k cs0 alpha beta gamma delta tau gpk gvk xs Hk W0 Hm ES HU) as (sim & H). exists (out_of sim).
  pose proof (setup_short k cs0 _ _ _ _ _ pk vk Hk Hm HF HS) as SH.
  destruct C63_library_groups as (_ & _ & _ & _ & _ & _ & _ & _ & G1E & G2E).
  assert (EQ : forall cs x y r t, bn_prove pk cs r t = Done (out_of sim x y) <->
    g_prove fr_two_adicity fr_root fr_gen G gpk cs r t = Done (mkProof _ _ (gmul1 G (gg1 G) x) (gmul2 G (gg2 G) y) (gmul1 G (gg1 G) (sim x y)))).
  { intros cs x y r t. pose proof (bn_prove_agree pk gpk cs r t RP SH) as A. split; intros E; rewrite E in A.
    - destruct (g_prove fr_two_adicity fr_root fr_gen G gpk cs r t) as [[ga gb gc]| |]; try contradiction. apply (f_equal Done). destruct A as (A1 & A2 & A3).
      cbn [out_of cpf_a cpf_b cpf_c pf_a pf_b pf_c] in A1, A2, A3. unfold ra in A1, A2, A3. rewrite aff_canon in A1, A2, A3.
      assert (EA : ga = gmul1 G (gg1 G) x) by (apply pt1_inj; rewrite pt1_mul, G1E; symmetry; exact A1).
      assert (EB : gb = gmul2 G (gg2 G) y) by (apply pt2_inj; rewrite pt2_mul, G2E; symmetry; exact A2).
      assert (EC : gc = gmul1 G (gg1 G) (sim x y)) by (apply pt1_inj; rewrite pt1_mul, G1E; symmetry; exact A3).
      rewrite EA, EB, EC. reflexivity.
    - destruct (bn_prove pk cs r t) as [pf| |] eqn:EP; try contradiction. apply (f_equal Done). destruct A as (A1 & A2 & A3). cbn [pf_a pf_b pf_c] in A1, A2, A3.
      unfold ra in A1, A2, A3. rewrite pt1_mul, G1E in A1, A3. rewrite pt2_mul, G2E in A2.
      rewrite (c_prove_canon _ _ _ _ _ _ _ _ _ _ _ _ _ _ _ EP), A1, A2, A3. reflexivity. }
  intros cs Wc SC SAT X. destruct (H cs Wc SC SAT X) as (H1 & H2). split.
  - intros x y. destruct (H1 x y) as (r & t & R). exists r, t. intros r' t'. rewrite EQ. apply R.
  - intros r t. destruct (H2 r t) as (x & y & E). exists x, y. apply EQ. exact E.
Qed.

(** Soundness against algebraic provers: the points they send are fixed linear combinations of the points of the key. *)
Definition lin1 (bases : list (aff FqFld)) (coeffs : list FrFld) : point FqFld := pt_sum (map (fun '(b, c) => pt_zmul (fr_val c) (point1 b)) (combine bases coeffs)).
Definition lin2 (bases : list (aff Fq2Fld)) (coeffs : list FrFld) : point Fq2Fld := pt_sum (map (fun '(b, c) => pt_zmul (fr_val c) (point2 b)) (combine bases coeffs)).
Definition key_combination1 (pk : bn_params) (c : combination1 FrFld) : point FqFld :=
  let vk := cp_vk _ _ pk in
  pt_add (lin1 [bn_g1; cvk_alpha_g1 _ _ vk; cvk_beta_g1 _ _ vk; cvk_delta_g1 _ _ vk] [k_g c; k_alpha c; k_beta c; k_delta c])
   (pt_add (lin1 (cvk_ic _ _ vk) (k_ic c)) (pt_add (lin1 (cp_h _ _ pk) (k_h c))
     (pt_add (lin1 (cp_l _ _ pk) (k_l c)) (pt_add (lin1 (cp_a _ _ pk) (k_a c)) (lin1 (cp_b_g1 _ _ pk) (k_b c)))))).
Definition key_combination2 (pk : bn_params) (c : combination2 FrFld) : point Fq2Fld :=
  let vk := cp_vk _ _ pk in
  pt_add (lin2 [bn_g2; cvk_beta_g2 _ _ vk; cvk_gamma_g2 _ _ vk; cvk_delta_g2 _ _ vk] [h_g c; h_beta c; h_gamma c; h_delta c])
   (lin2 (cp_b_g2 _ _ pk) (h_b c)).
Lemma lin1_ok bs Bs cs : Forall2 ra1 bs Bs -> pt1 (lin FrFld (gmul1 G) Bs cs) = lin1 bs cs.
Proof.
  intros H. unfold lin, lin1. rewrite (val_sum FqFld (gA1 G) pt1 pt1_0 pt1_add). apply f_equal. revert cs.
  induction H as [|b x bs Bs H HS IH]; intros [|c cs]; try reflexivity. cbn [combine map]. rewrite IH, pt1_mul, <- H. reflexivity.
Qed.
Lemma lin2_ok bs Bs cs : Forall2 ra2 bs Bs -> pt2 (lin FrFld (gmul2 G) Bs cs) = lin2 bs cs.
Proof.
  intros H. unfold lin, lin2. rewrite (val_sum Fq2Fld (gA2 G) pt2 pt2_0 pt2_add). apply f_equal. revert cs.
  induction H as [|b x bs Bs H HS IH]; intros [|c cs]; try reflexivity. cbn [combine map]. rewrite IH, pt2_mul, <- H. reflexivity.
Qed.
Lemma comb1_ok pk gpk c : pk_rel pk gpk -> pt1 (combine1 G gpk c) = key_combination1 pk c.
Proof.
  intros (HV & Hh & Hl & Ha & Hb & _). destruct HV as (Val & Vbe & Vbe2 & Vga & Vde & Vde2 & Vic). unfold combine1, key_combination1. cbv zeta.
  rewrite !pt1_add. rewrite (lin1_ok _ _ _ Vic), (lin1_ok _ _ _ Hh), (lin1_ok _ _ _ Hl), (lin1_ok _ _ _ Ha), (lin1_ok _ _ _ Hb). apply (f_equal2 pt_add); [|reflexivity].
  apply lin1_ok. repeat (apply Forall2_cons; [first [exact gen1_rel|assumption]|]). apply Forall2_nil.
Qed.
Lemma comb2_ok pk gpk c : pk_rel pk gpk -> pt2 (combine2 G gpk c) = key_combination2 pk c.
Proof.
  intros (HV & _ & _ & _ & _ & Hb). destruct HV as (Val & Vbe & Vbe2 & Vga & Vde & Vde2 & Vic). unfold combine2, key_combination2. cbv zeta.
  rewrite !pt2_add. rewrite (lin2_ok _ _ _ Hb). apply (f_equal2 pt_add); [|reflexivity].
  apply lin2_ok. repeat (apply Forall2_cons; [first [exact gen2_rel|assumption]|]). apply Forall2_nil.
Qed.
Theorem C73_soundness k cs0 (sA : combination1 FrFld) (sB : combination2 FrFld) (sC : combination1 FrFld) (xs As Bs Gs Ds Ts : list FrFld) :
  (1 <= k <= 28)%nat -> wf_cs cs0 -> r_m cs0 = (2 ^ k)%nat ->
  NoDup As -> NoDup Bs -> NoDup Gs -> NoDup Ds -> NoDup Ts ->
  (2 <= length As)%nat -> (3 <= length Bs)%nat -> (3 <= length Gs)%nat -> (4 <= length Ds)%nat -> (2 * 2 ^ k - 1 <= length Ts)%nat ->
  (forall gamma delta tau, In gamma Gs -> In delta Ds -> In tau Ts -> usable (2 ^ k) gamma delta tau) ->
  (forall alpha beta gamma delta tau pk vk, In alpha As -> In beta Bs -> In gamma Gs -> In delta Ds -> In tau Ts ->
     bn_setup cs0 alpha beta gamma delta tau = Done (pk, vk) ->
     exists pf, point1 (cpf_a _ _ pf) = key_combination1 pk sA /\ point2 (cpf_b _ _ pf) = key_combination2 pk sB /\ point1 (cpf_c _ _ pf) = key_combination1 pk sC /\
       bn_verify vk pf xs = Done tt) ->
  exists cs, wf_cs cs /\ same_circuit cs0 cs /\ is_sat FrFld cs = Some true /\ r_x cs = 1 :: xs.
Proof.
  intros Hk W0 Hm N1 N2 N3 N4 N5 L1 L2 L3 L4 L5 HU H. apply (C63_soundness k cs0 sA sB sC xs As Bs Gs Ds Ts Hk W0 Hm N1 N2 N3 N4 N5 L1 L2 L3 L4 L5 HU).
  intros alpha beta gamma delta tau gpk gvk I1 I2 I3 I4 I5 ES. pose proof (bn_setup_agree cs0 alpha beta gamma delta tau) as A. rewrite ES in A.
  destruct (bn_setup cs0 alpha beta gamma delta tau) as [[pk vk]| |] eqn:E; try contradiction. destruct A as [RP RV]. cbn [fst snd] in RP, RV.
  destruct (H alpha beta gamma delta tau pk vk I1 I2 I3 I4 I5 E) as (pf & PA & PB & PC & V).
  rewrite <- V. symmetry. apply bn_verify_agree; [exact RV|]. split; [|split]; cbn [pf_a pf_b pf_c]; unfold ra.
  - rewrite (comb1_ok pk gpk sA RP). exact PA.
  - rewrite (comb2_ok pk gpk sB RP). exact PB.
  - rewrite (comb1_ok pk gpk sC RP). exact PC.
Qed.

(** The verifier, for any key and any proof whose points are in the groups. *)
Definition key_points (vk : bn_key) : Prop :=
  in_g1 (to1 (cvk_alpha_g1 _ _ vk)) /\ in_g2 (to2 (cvk_beta_g2 _ _ vk)) /\ in_g2 (to2 (cvk_gamma_g2 _ _ vk)) /\ in_g2 (to2 (cvk_delta_g2 _ _ vk)) /\
  Forall (fun p => in_g1 (to1 p)) (cvk_ic _ _ vk).
Definition proof_points (pf : bn_proof) : Prop := in_g1 (to1 (cpf_a _ _ pf)) /\ in_g2 (to2 (cpf_b _ _ pf)) /\ in_g1 (to1 (cpf_c _ _ pf)).
Lemma g1_elt p : in_g1 (to1 p) -> exists x, ra1 p x.
Proof. intros H. destruct C63_library_groups as (_ & _ & _ & _ & _ & _ & E & _). destruct (E _ H) as (x & X). exists x. symmetry. exact X. Qed.
Lemma g2_elt p : in_g2 (to2 p) -> exists x, ra2 p x.
Proof. intros H. destruct C63_library_groups as (_ & _ & _ & _ & _ & _ & _ & E & _). destruct (E _ H) as (x & X). exists x. symmetry. exact X. Qed.
Lemma g1_elts l : Forall (fun p => in_g1 (to1 p)) l -> exists L, Forall2 ra1 l L.
Proof.
  induction 1 as [|p l H HS (L & R)]; [exists []; apply Forall2_nil|]. destruct (g1_elt p H) as (x & X). exists (x :: L). apply Forall2_cons; assumption.
Qed.
Lemma run_in_groups vk pf : key_points vk -> proof_points pf -> exists gvk gpf pvk,
  bn_prepare vk = Some pvk /\ pvk_rel pvk (g_prepare G gvk) /\ pf_rel pf gpf /\
  ra1 (cvk_alpha_g1 _ _ vk) (vk_alpha_g1 _ _ gvk) /\ ra2 (cvk_beta_g2 _ _ vk) (vk_beta_g2 _ _ gvk) /\ ra2 (cvk_gamma_g2 _ _ vk) (vk_gamma_g2 _ _ gvk) /\
  ra2 (cvk_delta_g2 _ _ vk) (vk_delta_g2 _ _ gvk) /\ Forall2 ra1 (cvk_ic _ _ vk) (vk_ic _ _ gvk).
Proof.
  intros (H1 & H2 & H3 & H4 & H5) (P1 & P2 & P3). destruct (g1_elt _ H1) as (al & Ral), (g2_elt _ H2) as (be & Rbe), (g2_elt _ H3) as (ga & Rga), (g2_elt _ H4) as (de & Rde), (g1_elts _ H5) as (ic & Ric).
  destruct (g1_elt _ P1) as (a & Ra), (g2_elt _ P2) as (b & Rb), (g1_elt _ P3) as (c & Rc).
  assert (R0 : ra1 (aff_identity FqFld) a0) by (exact (r_0 FqFld (gA1 G) pt1 pt1_0)).
  set (gvk := mkVk (gA1 G) (gA2 G) al a0 be ga a0 de ic).
  assert (RV : vk_rel (mkCVk FqFld Fq2Fld (cvk_alpha_g1 _ _ vk) (aff_identity FqFld) (cvk_beta_g2 _ _ vk) (cvk_gamma_g2 _ _ vk) (aff_identity FqFld) (cvk_delta_g2 _ _ vk) (cvk_ic _ _ vk)) gvk).
  { repeat split; assumption. }
  destruct (bn_prepare_agree _ _ RV) as (pvk & EP & RP). exists gvk, (mkProof (gA1 G) (gA2 G) a b c), pvk.
  split; [exact EP|]. split; [exact RP|]. split; [split; [exact Ra|split; [exact Rb|exact Rc]]|]. repeat split; assumption.
Qed.
Theorem C73_verify_iff vk pf xs X eAB eab eX eC : key_points vk -> proof_points pf ->
  aff1_point X = lin1 (cvk_ic _ _ vk) (1 :: xs) ->
  ate_pairing (to1 (cpf_a _ _ pf)) (to2 (cpf_b _ _ pf)) = Some eAB -> ate_pairing (to1 (cvk_alpha_g1 _ _ vk)) (to2 (cvk_beta_g2 _ _ vk)) = Some eab ->
  ate_pairing X (to2 (cvk_gamma_g2 _ _ vk)) = Some eX -> ate_pairing (to1 (cpf_c _ _ pf)) (to2 (cvk_delta_g2 _ _ vk)) = Some eC ->
  exists pvk, bn_prepare vk = Some pvk /\
    (bn_verify pvk pf xs = Done tt <-> length (cvk_ic _ _ vk) = S (length xs) /\ eAB = q12_mul FqFld eab (q12_mul FqFld eX eC)).
Proof.
  intros HK HP HX EAB Eab EX EC. destruct (run_in_groups vk pf HK HP) as (gvk & gpf & pvk & EP & RV & RP & Ral & Rbe & Rga & Rde & Ric).
  exists pvk. split; [exact EP|]. rewrite (bn_verify_agree _ _ _ _ xs RV RP). rewrite (f2_length _ _ _ Ric). destruct RP as (R1 & R2 & R3).
  refine (C63_verify_iff gvk gpf xs (to1 (cpf_a _ _ pf)) (to2 (cpf_b _ _ pf)) (to1 (cpf_c _ _ pf)) (to1 (cvk_alpha_g1 _ _ vk)) (to2 (cvk_beta_g2 _ _ vk)) (to2 (cvk_gamma_g2 _ _ vk)) (to2 (cvk_delta_g2 _ _ vk)) X eAB eab eX eC (eq_sym R1) (eq_sym R2) (eq_sym R3) (eq_sym Ral) (eq_sym Rbe) (eq_sym Rga) (eq_sym Rde) _ EAB Eab EX EC).
  rewrite HX. unfold lin1. apply f_equal. clear -Ric. generalize (1 :: xs). induction Ric as [|b x bs Bs H HS IH]; intros [|c cs]; try reflexivity.
  cbn [combine map]. rewrite IH, <- H. reflexivity.
Qed.
(** It panics on an empty key only, and tells a wrong number of inputs from a wrong proof. *)
Theorem C73_verify_total vk pf xs : key_points vk -> proof_points pf -> exists pvk, bn_prepare vk = Some pvk /\
  match bn_verify pvk pf xs with
  | Done tt => length (cvk_ic _ _ vk) = S (length xs)
  | Failed (InconsistentPublicInputsLen expected got) => length (cvk_ic _ _ vk) = S expected /\ got = length xs /\ expected <> got
  | Failed e => e = ProofVerificationError /\ length (cvk_ic _ _ vk) = S (length xs)
  | Panicked => cvk_ic _ _ vk = []
  end.
Proof.
  intros HK HP. destruct (run_in_groups vk pf HK HP) as (gvk & gpf & pvk & EP & RV & RP & _ & _ & _ & _ & Ric).
  exists pvk. split; [exact EP|]. rewrite (bn_verify_agree _ _ _ _ xs RV RP). pose proof (C35_verify_rejects FrFld G gvk gpf xs) as H. rewrite (f2_length _ _ _ Ric).
  destruct (g_verify G (g_prepare G gvk) gpf xs) as [[]|[| | |e p]|]; try exact H. rewrite H in Ric. inversion Ric. reflexivity.
Qed.
(** The hypotheses are met by a circuit with a satisfied instance. *)
Example C73_example : exists pk vk pf,
  bn_setup (fourth (fr_mk 0) (fr_mk 0) (fr_mk 0)) (fr_mk 2) (fr_mk 3) (fr_mk 5) (fr_mk 7) (fr_mk 11) = Done (pk, vk) /\
    bn_prove pk toy (fr_mk 13) (fr_mk 17) = Done pf /\ bn_verify vk pf [fr_mk 81] = Done tt.
Proof.
  apply (C73_completeness 1 (fourth (fr_mk 0) (fr_mk 0) (fr_mk 0)) (fr_mk 2) (fr_mk 3) (fr_mk 5) (fr_mk 7) (fr_mk 11) toy (fr_mk 13) (fr_mk 17)).
  - lia.
  - apply fourth_wf.
  - unfold fits. cbn [r_x r_w fourth length]. lia.
  - reflexivity.
  - exact toy_usable.
  - apply fourth_wf.
  - unfold same_circuit. cbn [r_m r_a r_b r_c r_x r_w fourth toy length]. tauto.
  - apply toy_sat.
Qed.
Example C73_example_points : in_g1 (to1 bn_g1) /\ in_g2 (to2 bn_g2).
Proof.
  split.
  - unfold in_g1. rewrite <- point1_eq. change (point1 bn_g1) with (aff_pt FqFld bn_g1). rewrite gen1_rel. apply pt1_on.
  - exists 1%Z. unfold pt_zmul. cbn. reflexivity.
Qed.
