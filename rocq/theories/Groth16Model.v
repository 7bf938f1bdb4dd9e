(** groth16/src/zksnark.rs, prover.rs, verifier.rs, proof.rs, params.rs: the Groth16 argument.
    The two curve groups and the target group are groups written additively, whatever their
    representation ([into()] between affine and projective form is the identity here; WeierModel.v and
    PairingModel.v model the representations).  Scalars are exact field elements.  The random draws are
    arguments.  The circuit is the constraint system its [synthesize] leaves behind. *)
From Coq Require Import ZArith List Bool.
From Verif Require Import Algebra GroupLib PolyModel R1csModel.
Import ListNotations.
Local Open Scope fld_scope.

(** error.rs:1-8, the constructors reached here; [Panicked] is a panic. *)
Inductive gerror := ProverSubVersionCrsAttack | ProverInversionFailed | ProofVerificationError
  | InconsistentPublicInputsLen (expected provided : nat).
Inductive outcome (A : Type) := Done (a : A) | Failed (e : gerror) | Panicked.
Arguments Done {A}. Arguments Failed {A}. Arguments Panicked {A}.
Definition obind {A B} (o : option A) (k : A -> outcome B) : outcome B :=
  match o with Some a => k a | None => Panicked end.
Notation "'need' x <- o ; k" := (obind o (fun x => k)) (at level 200, x pattern, o at level 100, k at level 200).

Section Groth16.
Variable F : Fld.
(** The constants [S], [ROOT_OF_UNITY], [MULTIPLICATIVE_GENERATOR] of the scalar field. *)
Variables (two_adicity : nat) (root gen : F).
(** The groups with their equality tests, scalar multiplications, generators and the pairing
    (Miller loop and final exponentiation). *)
Variables (A1 A2 AT : AbGrp) (eq1 : A1 -> A1 -> bool) (eq2 : A2 -> A2 -> bool) (eqT : AT -> AT -> bool).
Variables (mul1 : A1 -> F -> A1) (mul2 : A2 -> F -> A2) (pair : A1 -> A2 -> AT) (g1 : A1) (g2 : A2).
Local Infix "+!" := aadd (at level 50, left associativity).

(** verifier.rs:19-47 [VerifyingKey]. *)
Record vkey := mkVk { vk_alpha_g1 : A1; vk_beta_g1 : A1; vk_beta_g2 : A2; vk_gamma_g2 : A2; vk_delta_g1 : A1; vk_delta_g2 : A2; vk_ic : list A1 }.
(** verifier.rs:67-75 [PreparedVerifyingKey]. *)
Record pvkey := mkPvk { pvk_alpha_beta : AT; pvk_neg_gamma : A2; pvk_neg_delta : A2; pvk_ic : list A1 }.
(** params.rs:6-29 [Parameters]. *)
Record params := mkParams { p_vk : vkey; p_h : list A1; p_l : list A1; p_a : list A1; p_b_g1 : list A1; p_b_g2 : list A2 }.
(** proof.rs:7-11 [Proof]. *)
Record proof := mkProof { pf_a : A1; pf_b : A2; pf_c : A1 }.

(** zksnark.rs:196-200 [eval_at_tau]; [None] = index out of bounds. *)
Fixpoint eval_from (acc : F) (powers_of_tau : list F) (p : list (F * nat)) : option F :=
  match p with
  | [] => Some acc
  | (coeff, index) :: p => match nth_error powers_of_tau index with
                           | Some t => eval_from (acc + t * coeff) powers_of_tau p
                           | None => None
                           end
  end.
Definition eval_at_tau (powers_of_tau : list F) (p : list (F * nat)) : option F := eval_from 0 powers_of_tau p.
(** zksnark.rs:166-193: the body of the loop of [eval]; the output slots hold the identity before. *)
Definition eval_one (pt : list F) (inv alpha beta : F) (at_ bt ct : list (F * nat)) : option (A1 * A1 * A2 * A1) :=
  match eval_at_tau pt at_, eval_at_tau pt bt, eval_at_tau pt ct with
  | Some at_, Some bt, Some ct =>
      Some ((if kis0 at_ then a0 else mul1 g1 at_),
            (if kis0 bt then a0 else mul1 g1 bt),
            (if kis0 bt then a0 else mul2 g2 bt),
            mul1 g1 ((at_ * beta + bt * alpha + ct) * inv))
  | _, _, _ => None
  end.
(** zksnark.rs:126-194 [eval] over [len] slots; [None]: a failed [assert_eq!] or [eval_at_tau]. *)
Fixpoint eval_all (pt : list F) (inv alpha beta : F) (a b c : list (list (F * nat))) : option (list A1 * list A1 * list A2 * list A1) :=
  match a, b, c with
  | at_ :: a, bt :: b, ct :: c =>
      match eval_one pt inv alpha beta at_ bt ct, eval_all pt inv alpha beta a b c with
      | Some (x, y, z, e), Some (xs, ys, zs, es) => Some (x :: xs, y :: ys, z :: zs, e :: es)
      | _, _ => None
      end
  | _, _, _ => Some ([], [], [], [])
  end.
Definition eval (len : nat) (pt : list F) (inv alpha beta : F) (a b c : list (list (F * nat))) : option (list A1 * list A1 * list A2 * list A1) :=
  if Nat.eqb len (length a) && Nat.eqb len (length b) && Nat.eqb len (length c) then eval_all pt inv alpha beta a b c else None.
(** [m.next_power_of_two().trailing_zeros()] (zksnark.rs:24-25, prover.rs:29-30). *)
Definition fft_log (m : nat) : nat := Nat.log2_up m.
(** verifier.rs:50-64 [prepare]; a single-pair [multi_miller_loop] with [final_exp]. *)
Definition prepare (vk : vkey) : pvkey :=
  mkPvk (pair (vk_alpha_g1 vk) (vk_beta_g2 vk)) (aneg (vk_gamma_g2 vk)) (aneg (vk_delta_g2 vk)) (vk_ic vk).
(** zksnark.rs:17-123 [setup], after [synthesize]; the toxic waste is drawn in the order
    [alpha, beta, gamma, delta, tau].  [cs.m() - 1] cannot underflow: [Fft::new] has panicked before. *)
Definition setup (cs : r1cs F) (alpha beta gamma delta tau : F) : outcome (params * pvkey) :=
  need fft <- fft_new F two_adicity root gen (fft_log (r_m cs));
  match kinvert gamma, kinvert delta with
  | None, _ | _, None => Failed ProverInversionFailed
  | Some gamma_inverse, Some delta_inverse =>
      let powers_of_tau := powers F 1 tau (r_m cs) in
      let coeff := fft_z F fft tau * delta_inverse in
      let h := map (fun p => mul1 g1 (p * coeff)) (firstn (r_m cs - 1) powers_of_tau) in
      need lag <- idft F fft powers_of_tau;
      let l := length (r_x cs) in
      let m_l_1 := length (r_w cs) in
      need (a_x, a_w) <- x_and_w F (r_a cs) l m_l_1;
      need (b_x, b_w) <- x_and_w F (r_b cs) l m_l_1;
      need (c_x, c_w) <- x_and_w F (r_c cs) l m_l_1;
      need (a_i, b1_i, b2_i, ic) <- eval l lag gamma_inverse alpha beta a_x b_x c_x;
      need (a_u, b1_u, b2_u, lq) <- eval m_l_1 lag delta_inverse alpha beta a_w b_w c_w;
      let vk := mkVk (mul1 g1 alpha) (mul1 g1 beta) (mul2 g2 beta) (mul2 g2 gamma) (mul1 g1 delta) (mul2 g2 delta) ic in
      Done (mkParams vk h lq (a_i ++ a_u) (b1_i ++ b1_u) (b2_i ++ b2_u), prepare vk)
  end.
(** msm.rs:6-48 [msm_curve_addition]: MsmModel.v models it and C24_msm proves that it is this sum; the
    shorter of the two lists decides how many terms there are. *)
Definition msum {A : AbGrp} (mul : A -> F -> A) (bases : list A) (coeffs : list F) : A :=
  asum (map (fun '(b, c) => mul b c) (combine bases coeffs)).
(** [&v[l..]]; [None] = slice index out of range. *)
Definition tail_from {A} (l : nat) (v : list A) : option (list A) := if Nat.leb l (length v) then Some (skipn l v) else None.
(** prover.rs:37-52: the quotient polynomial. *)
Definition quotient_poly (fft : fft F) (a b c : list F) : option (list F) :=
  match idft F fft a, idft F fft b, idft F fft c with
  | Some a, Some b, Some c =>
      match coset_dft F fft a, coset_dft F fft b, coset_dft F fft c with
      | Some a, Some b, Some c =>
          match divide_by_z_on_coset F fft gen (points_sub F (points_mul F a b) c) with
          | Some q => coset_idft F fft q
          | None => None
          end
      | _, _, _ => None
      end
  | _, _, _ => None
  end.
(** prover.rs:21-99 [create_proof], after [synthesize], with the drawn [r] and [s]. *)
Definition create_proof (pk : params) (cs : r1cs F) (r s : F) : outcome proof :=
  let vk := p_vk pk in
  need fft <- fft_new F two_adicity root gen (fft_log (r_m cs));
  need (a, b, c) <- evaluate_all F cs;
  need q <- quotient_poly fft a b c;
  let q := msum mul1 (p_h pk) q in
  let input := r_x cs in
  let aux := r_w cs in
  let l := msum mul1 (p_l pk) aux in
  let a_inputs := msum mul1 (p_a pk) input in
  need ta <- tail_from (length input) (p_a pk);
  let a_aux := msum mul1 ta aux in
  let b_g1_inputs := msum mul1 (p_b_g1 pk) input in
  need tb <- tail_from (length input) (p_b_g1 pk);
  let b_g1_aux := msum mul1 tb aux in
  let b_g2_inputs := msum mul2 (p_b_g2 pk) input in
  need tb2 <- tail_from (length input) (p_b_g2 pk);
  let b_g2_aux := msum mul2 tb2 aux in
  if eq1 (vk_delta_g1 vk) a0 || eq2 (vk_delta_g2 vk) a0 then Failed ProverSubVersionCrsAttack
  else
    let a_answer := a_inputs +! a_aux in
    let b1_answer := b_g1_inputs +! b_g1_aux in
    let b2_answer := b_g2_inputs +! b_g2_aux in
    let g_a := (mul1 (vk_delta_g1 vk) r +! vk_alpha_g1 vk) +! a_answer in
    let g_b := (mul2 (vk_delta_g2 vk) s +! vk_beta_g2 vk) +! b2_answer in
    let g_c := ((mul1 (mul1 (vk_delta_g1 vk) r) s +! mul1 (vk_alpha_g1 vk) s) +! mul1 (vk_beta_g1 vk) r)
               +! mul1 a_answer s +! mul1 b1_answer r +! (q +! l) in
    Done (mkProof g_a g_b g_c).
(** proof.rs:14-50 [Proof::verify] (verifier.rs:14-16 forwards to it).  With an empty [ic] the error
    computes [vk.ic.len() - 1], which panics when overflow checks are on. *)
Definition verify (vk : pvkey) (pf : proof) (public_inputs : list F) : outcome unit :=
  match pvk_ic vk with
  | [] => Panicked
  | ic0 :: ic =>
      if negb (Nat.eqb (length public_inputs) (length ic)) then Failed (InconsistentPublicInputsLen (length ic) (length public_inputs))
      else
        let acc := fold_left (fun acc '(i, b) => acc +! mul1 b i) (combine public_inputs ic) ic0 in
        let pairing := (pair (pf_a pf) (pf_b pf) +! pair acc (pvk_neg_gamma vk)) +! pair (pf_c pf) (pvk_neg_delta vk) in
        if eqT pairing (pvk_alpha_beta vk) then Done tt else Failed ProofVerificationError
  end.
End Groth16.
