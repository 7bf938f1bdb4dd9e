(** groth16/src/zksnark.rs, prover.rs, verifier.rs, proof.rs on points in the forms the code keeps them in:
    keys and proofs hold affine points, products and sums are projective, [into()] converts back, the sums of
    the prover are bucket sums, and the verifier runs one Miller loop over three prepared pairs.
    Scalars and coordinates are exact field elements; a product of a point and a scalar reads the limbs of
    the scalar.  The random draws are arguments and the circuit is the constraint system its [synthesize]
    leaves behind, as in Groth16Model.v, whose scalar part is reused. *)
From Coq Require Import ZArith List Bool.
From Verif Require Import LimbModel FieldModel Algebra PolyModel R1csModel Groth16Model WeierModel MsmModel.
Import ListNotations.
Local Open Scope fld_scope.

Section Points.
Variable F : Fld.
(** The limbs of a scalar, the constants of its field, and [S], [ROOT_OF_UNITY], [MULTIPLICATIVE_GENERATOR]. *)
Variables (limbs : F -> l4) (P : fparams) (two_adicity : nat) (root gen : F).
(** The coordinate fields with PARAM_3B, and the generators. *)
Variables (K1 K2 : Fld) (b1 : K1) (b2 : K2) (g1 : aff K1) (g2 : aff K2).
(** [G2PairingAffine::from], and [multi_miller_loop] followed by [final_exp] ([None]: a panic), with the
    equality test of the target group. *)
Variables (T prep : Type) (prepare_point : aff K2 -> prep) (multi_pairing : list (aff K1 * prep) -> option T) (eqT : T -> T -> bool).

(** verifier.rs:19-47 [VerifyingKey], 67-75 [PreparedVerifyingKey], params.rs:6-29 [Parameters], proof.rs:7-11 [Proof]. *)
Record cvkey := mkCVk { cvk_alpha_g1 : aff K1; cvk_beta_g1 : aff K1; cvk_beta_g2 : aff K2; cvk_gamma_g2 : aff K2; cvk_delta_g1 : aff K1; cvk_delta_g2 : aff K2; cvk_ic : list (aff K1) }.
Record cpvkey := mkCPvk { cpvk_alpha_beta : T; cpvk_neg_gamma : prep; cpvk_neg_delta : prep; cpvk_ic : list (aff K1) }.
Record cparams := mkCParams { cp_vk : cvkey; cp_h : list (aff K1); cp_l : list (aff K1); cp_a : list (aff K1); cp_b_g1 : list (aff K1); cp_b_g2 : list (aff K2) }.
Record cproof := mkCProof { cpf_a : aff K1; cpf_b : aff K2; cpf_c : aff K1 }.

(** [(g * s).into()]: g1.rs:101-107 and g2.rs [Mul<Fr>], macros/curve/weierstrass.rs:77-82 [From]. *)
Definition mul_into1 (p : aff K1) (s : F) : option (aff K1) := option_map (to_affine K1) (aff_mul K1 b1 P p (limbs s)).
Definition mul_into2 (p : aff K2) (s : F) : option (aff K2) := option_map (to_affine K2) (aff_mul K2 b2 P p (limbs s)).
(** A loop whose body may panic. *)
Fixpoint map_opt {A B} (f : A -> option B) (l : list A) : option (list B) :=
  match l with
  | [] => Some []
  | a :: l => match f a with
              | None => None
              | Some b => match map_opt f l with Some l => Some (b :: l) | None => None end
              end
  end.

(** zksnark.rs:174-193: the body of the loop of [eval]; the slots hold [ADDITIVE_IDENTITY] before. *)
Definition c_eval_one (pt : list F) (inv alpha beta : F) (at_ bt ct : list (F * nat)) : option (aff K1 * aff K1 * aff K2 * aff K1) :=
  match eval_at_tau F pt at_, eval_at_tau F pt bt, eval_at_tau F pt ct with
  | Some at_, Some bt, Some ct =>
      match (if kis0 at_ then Some (aff_identity K1) else mul_into1 g1 at_),
            (if kis0 bt then Some (aff_identity K1) else mul_into1 g1 bt),
            (if kis0 bt then Some (aff_identity K2) else mul_into2 g2 bt),
            mul_into1 g1 ((at_ * beta + bt * alpha + ct) * inv) with
      | Some a, Some b, Some b', Some e => Some (a, b, b', e)
      | _, _, _, _ => None
      end
  | _, _, _ => None
  end.
(** zksnark.rs:126-194 [eval] over [len] slots. *)
Fixpoint c_eval_all (pt : list F) (inv alpha beta : F) (a b c : list (list (F * nat))) : option (list (aff K1) * list (aff K1) * list (aff K2) * list (aff K1)) :=
  match a, b, c with
  | at_ :: a, bt :: b, ct :: c =>
      match c_eval_one pt inv alpha beta at_ bt ct, c_eval_all pt inv alpha beta a b c with
      | Some (x, y, z, e), Some (xs, ys, zs, es) => Some (x :: xs, y :: ys, z :: zs, e :: es)
      | _, _ => None
      end
  | _, _, _ => Some ([], [], [], [])
  end.
Definition c_eval (len : nat) (pt : list F) (inv alpha beta : F) (a b c : list (list (F * nat))) : option (list (aff K1) * list (aff K1) * list (aff K2) * list (aff K1)) :=
  if Nat.eqb len (length a) && Nat.eqb len (length b) && Nat.eqb len (length c) then c_eval_all pt inv alpha beta a b c else None.
(** verifier.rs:50-64 [prepare]. *)
Definition c_prepare (vk : cvkey) : option cpvkey :=
  match multi_pairing [(cvk_alpha_g1 vk, prepare_point (cvk_beta_g2 vk))] with
  | Some e => Some (mkCPvk e (prepare_point (aff_neg K2 (cvk_gamma_g2 vk))) (prepare_point (aff_neg K2 (cvk_delta_g2 vk))) (cvk_ic vk))
  | None => None
  end.
(** zksnark.rs:17-123 [setup], after [synthesize]. *)
Definition c_setup (cs : r1cs F) (alpha beta gamma delta tau : F) : outcome (cparams * cpvkey) :=
  need fft <- fft_new F two_adicity root gen (fft_log (r_m cs));
  match kinvert gamma, kinvert delta with
  | None, _ | _, None => Failed ProverInversionFailed
  | Some gamma_inverse, Some delta_inverse =>
      let powers_of_tau := powers F 1 tau (r_m cs) in
      let coeff := fft_z F fft tau * delta_inverse in
      need h <- map_opt (fun p => mul_into1 g1 (p * coeff)) (firstn (r_m cs - 1) powers_of_tau);
      need lag <- idft F fft powers_of_tau;
      let l := length (r_x cs) in
      let m_l_1 := length (r_w cs) in
      need (a_x, a_w) <- x_and_w F (r_a cs) l m_l_1;
      need (b_x, b_w) <- x_and_w F (r_b cs) l m_l_1;
      need (c_x, c_w) <- x_and_w F (r_c cs) l m_l_1;
      need (a_i, b1_i, b2_i, ic) <- c_eval l lag gamma_inverse alpha beta a_x b_x c_x;
      need (a_u, b1_u, b2_u, lq) <- c_eval m_l_1 lag delta_inverse alpha beta a_w b_w c_w;
      need alpha_g1 <- mul_into1 g1 alpha;
      need beta_g1 <- mul_into1 g1 beta;
      need beta_g2 <- mul_into2 g2 beta;
      need gamma_g2 <- mul_into2 g2 gamma;
      need delta_g1 <- mul_into1 g1 delta;
      need delta_g2 <- mul_into2 g2 delta;
      let vk := mkCVk alpha_g1 beta_g1 beta_g2 gamma_g2 delta_g1 delta_g2 ic in
      need pvk <- c_prepare vk;
      Done (mkCParams vk h lq (a_i ++ a_u) (b1_i ++ b1_u) (b2_i ++ b2_u), pvk)
  end.
(** [msm_curve_addition(&bases, &coeffs)] (msm.rs:6-48). *)
Definition msm1 (bases : list (aff K1)) (coeffs : list F) : option (proj K1) := msm K1 b1 P bases (map limbs coeffs).
Definition msm2 (bases : list (aff K2)) (coeffs : list F) : option (proj K2) := msm K2 b2 P bases (map limbs coeffs).
(** prover.rs:21-99 [create_proof], after [synthesize], with the drawn [r] and [s]. *)
Definition c_prove (pk : cparams) (cs : r1cs F) (r s : F) : outcome cproof :=
  let vk := cp_vk pk in
  need fft <- fft_new F two_adicity root gen (fft_log (r_m cs));
  need (a, b, c) <- evaluate_all F cs;
  need q <- quotient_poly F gen fft a b c;
  need q <- msm1 (cp_h pk) q;
  let input := r_x cs in
  let aux := r_w cs in
  need l <- msm1 (cp_l pk) aux;
  need a_inputs <- msm1 (cp_a pk) input;
  need ta <- tail_from (length input) (cp_a pk);
  need a_aux <- msm1 ta aux;
  need b_g1_inputs <- msm1 (cp_b_g1 pk) input;
  need tb <- tail_from (length input) (cp_b_g1 pk);
  need b_g1_aux <- msm1 tb aux;
  need b_g2_inputs <- msm2 (cp_b_g2 pk) input;
  need tb2 <- tail_from (length input) (cp_b_g2 pk);
  need b_g2_aux <- msm2 tb2 aux;
  if aff_is_identity K1 (cvk_delta_g1 vk) || aff_is_identity K2 (cvk_delta_g2 vk) then Failed ProverSubVersionCrsAttack
  else
    need delta_r <- aff_mul K1 b1 P (cvk_delta_g1 vk) (limbs r);
    let g_a := proj_add_aff K1 b1 delta_r (cvk_alpha_g1 vk) in
    need delta_s <- aff_mul K2 b2 P (cvk_delta_g2 vk) (limbs s);
    let g_b := proj_add_aff K2 b2 delta_s (cvk_beta_g2 vk) in
    need delta_rs <- scalar_point K1 b1 P delta_r (limbs s);
    need alpha_s <- aff_mul K1 b1 P (cvk_alpha_g1 vk) (limbs s);
    need beta_r <- aff_mul K1 b1 P (cvk_beta_g1 vk) (limbs r);
    let g_c := proj_add K1 b1 (proj_add K1 b1 delta_rs alpha_s) beta_r in
    let a_answer := proj_add K1 b1 a_inputs a_aux in
    let g_a := proj_add_assign K1 b1 g_a a_answer in
    need a_answer_s <- scalar_point K1 b1 P a_answer (limbs s);
    let g_c := proj_add_assign K1 b1 g_c a_answer_s in
    let b1_answer := proj_add K1 b1 b_g1_inputs b_g1_aux in
    let b2_answer := proj_add K2 b2 b_g2_inputs b_g2_aux in
    let g_b := proj_add_assign K2 b2 g_b b2_answer in
    need b1_answer_r <- scalar_point K1 b1 P b1_answer (limbs r);
    let g_c := proj_add_assign K1 b1 g_c b1_answer_r in
    let g_c := proj_add_assign K1 b1 g_c (proj_add K1 b1 q l) in
    Done (mkCProof (to_affine K1 g_a) (to_affine K2 g_b) (to_affine K1 g_c)).
(** proof.rs:26-30: the sum over the public inputs. *)
Fixpoint c_inputs (acc : proj K1) (l : list (F * aff K1)) : option (proj K1) :=
  match l with
  | [] => Some acc
  | (i, b) :: l => match aff_mul K1 b1 P b (limbs i) with
                   | Some t => c_inputs (proj_add_assign K1 b1 acc t) l
                   | None => None
                   end
  end.
(** proof.rs:14-50 [Proof::verify]; an empty [ic] panics on [vk.ic.len() - 1] when overflow checks are on. *)
Definition c_verify (vk : cpvkey) (pf : cproof) (public_inputs : list F) : outcome unit :=
  match cpvk_ic vk with
  | [] => Panicked
  | ic0 :: ic =>
      if negb (Nat.eqb (length public_inputs) (length ic)) then Failed (InconsistentPublicInputsLen (length ic) (length public_inputs))
      else
        need acc <- c_inputs (to_extended K1 ic0) (combine public_inputs ic);
        need pairing <- multi_pairing [(cpf_a pf, prepare_point (cpf_b pf)); (to_affine K1 acc, cpvk_neg_gamma vk); (cpf_c pf, cpvk_neg_delta vk)];
        if eqT pairing (cpvk_alpha_beta vk) then Done tt else Failed ProofVerificationError
  end.
End Points.
