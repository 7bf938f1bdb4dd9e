(** Groth16Points.v once more, with the point arithmetic, the pairing and the scalar functions that square or invert as
    parameters: the limb functions of Fr and Fq lose a carry in [square] on some elements (C02), which Groth16Points.v
    leaves out.  Every such operation may answer [None], a panic.  Three sets of operations are defined here: those of the
    code, on limbs; those of exact arithmetic; and those that panic as soon as a [square], an [invert] or a [pow] is about
    to return a wrong element ("guarded"), with which the claims of C74 say which runs are exact. *)
From Coq Require Import ZArith List Bool.
From Verif Require Import LimbModel FieldModel FieldSpec Algebra PolyModel R1csModel Groth16Model WeierModel MsmModel WeierSqModel Groth16Points.
Import ListNotations.
Local Open Scope fld_scope.

Definition obnd {A B} (x : option A) (f : A -> option B) : option B := match x with Some a => f a | None => None end.
Notation "'try' x <- o ; k" := (obnd o (fun x => k)) (at level 200, x pattern, o at level 100, k at level 200).

(** ** One curve *)
Section Curve.
Variable K : Fld.
(** [add_affine_point], [add_mixed_point] on (projective, affine), [add_projective_point], [double_projective_point]
    (weierstrass.rs) and [to_affine] (macros/curve/weierstrass.rs:57-66). *)
Record cops := mkCops {
  co_aa : aff K -> aff K -> option (proj K); co_pa : proj K -> aff K -> option (proj K);
  co_pp : proj K -> proj K -> option (proj K); co_dbl : proj K -> option (proj K); co_into : proj K -> option (aff K) }.
Variables (o : cops) (P : fparams).
(** weierstrass.rs:167-178 [scalar_point]. *)
Definition l_step (point res : proj K) (d : naf) : option (proj K) :=
  try res <- co_dbl o res;
  match d with NPlus => co_pp o res point | NMinus => co_pp o res (proj_neg K point) | NZero => Some res end.
Fixpoint l_digits (point res : proj K) (ds : list naf) : option (proj K) :=
  match ds with [] => Some res | d :: ds => try res <- l_step point res d; l_digits point res ds end.
Definition l_scalar (point : proj K) (s : l4) : option (proj K) :=
  match fto_nafs P s with Some ds => l_digits point (proj_identity K) ds | None => None end.
(** g1.rs:101-107, g2.rs:63-69 [Mul<Fr>], followed by [into()]. *)
Definition l_mul (p : aff K) (s : l4) : option (proj K) := l_scalar (to_extended K p) s.
Definition l_mul_into (p : aff K) (s : l4) : option (aff K) := try q <- l_mul p s; co_into o q.
(** msm.rs:58-64 [Bucket::add_assign], 66-72 [Bucket::add]. *)
Definition l_bucket_add_assign (self : bucket K) (other : aff K) : option (bucket K) :=
  match self with
  | BNone _ => Some (BAffine K other)
  | BAffine _ a => try r <- co_aa o a other; Some (BProjective K r)
  | BProjective _ a => try r <- co_pa o a other; Some (BProjective K r)
  end.
Definition l_bucket_add (self : bucket K) (other : proj K) : option (proj K) :=
  match self with BNone _ => Some other | BAffine _ a => co_pa o other a | BProjective _ a => co_pp o other a end.
Fixpoint l_bucket_update (l : list (bucket K)) (i : nat) (base : aff K) : option (list (bucket K)) :=
  match l, i with
  | [], _ => None
  | b :: l, O => try b <- l_bucket_add_assign b base; Some (b :: l)
  | b :: l, S i => try l <- l_bucket_update l i base; Some (b :: l)
  end.
(** msm.rs:25-30. *)
Fixpoint l_fill (i c : Z) (items : list (l4 * aff K)) (bk : list (bucket K)) : option (list (bucket K)) :=
  match items with
  | [] => Some bk
  | (coeff, base) :: items =>
      let seg := get_at i c (to_bytes P coeff) in
      if (seg =? 0)%Z then l_fill i c items bk
      else try bk <- l_bucket_update bk (Z.to_nat (seg - 1)) base; l_fill i c items bk
  end.
(** msm.rs:35-40. *)
Fixpoint l_by_parts (bk : list (bucket K)) (sum acc : proj K) : option (proj K) :=
  match bk with
  | [] => Some acc
  | b :: bk => try sum <- l_bucket_add b sum; try acc <- co_pp o acc sum; l_by_parts bk sum acc
  end.
(** msm.rs:41. *)
Fixpoint l_doubles (n : nat) (acc : proj K) : option (proj K) :=
  match n with O => Some acc | S n => try acc <- co_dbl o acc; l_doubles n acc end.
Definition l_segment (c : Z) (items : list (l4 * aff K)) (i : Z) : option (proj K) :=
  try bk <- l_fill i c items (repeat (BNone K) (Z.to_nat (2 ^ c - 1)));
  try s <- l_by_parts (rev bk) (proj_identity K) (proj_identity K);
  l_doubles (Z.to_nat (c * i)) s.
(** msm.rs:45-47. *)
Fixpoint l_segments (c : Z) (items : list (l4 * aff K)) (acc : proj K) (is : list nat) : option (proj K) :=
  match is with
  | [] => Some acc
  | i :: is => try s <- l_segment c items (Z.of_nat i); try acc <- co_pp o acc s; l_segments c items acc is
  end.
(** msm.rs:6-48 [msm_curve_addition]. *)
Definition l_msm (bases : list (aff K)) (coeffs : list l4) : option (proj K) :=
  let c := msm_window (Z.of_nat (length bases)) in
  l_segments c (combine coeffs bases) (proj_identity K) (rev (seq 0 (Z.to_nat (256 / c + 1)))).
End Curve.

(** *** The three sets of operations of a curve. *)
Section Instances.
Variables (K : Fld) (b3 : K).
Definition exact_curve : cops K :=
  mkCops K (fun p q => Some (aff_add K b3 p q)) (fun p q => Some (proj_add_aff K b3 p q)) (fun p q => Some (proj_add K b3 p q))
    (fun p => Some (double_projective_point K b3 p)) (fun p => Some (to_affine K p)).
(** The [square] of the base field, and its [invert]; [inv z = None]: a panic. *)
Variables (sq : K -> K) (inv : K -> option (option K)).
(** macros/curve/weierstrass.rs:57-66 [to_affine]. *)
Definition l_to_affine (p : proj K) : option (aff K) :=
  try i <- inv (jz p);
  Some (match i with Some zi => Aff (jx p * zi) (jy p * zi) false | None => aff_identity K end).
Definition limb_curve : cops K :=
  mkCops K (fun p q => Some (sq_add_affine_point K sq b3 p q)) (fun p q => Some (sq_add_mixed_point K sq b3 q p)) (fun p q => Some (sq_add_projective_point K sq b3 p q))
    (fun p => Some (sq_double_projective_point K sq b3 p)) l_to_affine.
(** [lost a]: [sq a] is wrong; [inv_ok a]: [inv a] is right. *)
Variables (lost inv_ok : K -> bool).
Definition guard {A} (l : list K) (a : A) : option A := if forallb (fun x => negb (lost x)) l then Some a else None.
Definition guarded_curve : cops K :=
  mkCops K (fun p q => guard (add_affine_squares K p q) (aff_add K b3 p q)) (fun p q => guard (add_mixed_squares K q p) (proj_add_aff K b3 p q))
    (fun p q => guard (add_projective_squares K p q) (proj_add K b3 p q)) (fun p => guard (double_projective_squares K p) (double_projective_point K b3 p))
    (fun p => if inv_ok (jz p) then Some (to_affine K p) else None).
End Instances.

(** ** The protocol *)
Section Protocol.
Variable F : Fld.
Variables (limbs : F -> l4) (P : fparams).
Variables (K1 K2 : Fld) (g1 : aff K1) (g2 : aff K2) (T prep : Type) (eqT : T -> T -> bool).
(** The two curves; [G2PairingAffine::from]; [multi_miller_loop] followed by [final_exp]; [Fft::new], [z],
    [divide_by_z_on_coset] (fft.rs) and the [invert] of the scalar field. *)
Record gops := mkGops {
  go_1 : cops K1; go_2 : cops K2; go_prepare : aff K2 -> option prep; go_pairing : list (aff K1 * prep) -> option T;
  go_fft : nat -> option (fft F); go_z : fft F -> F -> option F; go_divide : fft F -> list F -> option (list F); go_invert : F -> option (option F) }.
Variable o : gops.
Local Notation vkey := (cvkey K1 K2). Local Notation pvkey := (cpvkey K1 T prep). Local Notation params := (cparams K1 K2). Local Notation proof := (cproof K1 K2).
Definition l_into1 (p : aff K1) (s : F) : option (aff K1) := l_mul_into K1 (go_1 o) P p (limbs s).
Definition l_into2 (p : aff K2) (s : F) : option (aff K2) := l_mul_into K2 (go_2 o) P p (limbs s).
(** zksnark.rs:174-193 and 126-194 [eval]. *)
Definition l_eval_one (pt : list F) (inv alpha beta : F) (at_ bt ct : list (F * nat)) : option (aff K1 * aff K1 * aff K2 * aff K1) :=
  try at_ <- eval_at_tau F pt at_; try bt <- eval_at_tau F pt bt; try ct <- eval_at_tau F pt ct;
  try a <- if kis0 at_ then Some (aff_identity K1) else l_into1 g1 at_;
  try b <- if kis0 bt then Some (aff_identity K1) else l_into1 g1 bt;
  try b' <- if kis0 bt then Some (aff_identity K2) else l_into2 g2 bt;
  try e <- l_into1 g1 ((at_ * beta + bt * alpha + ct) * inv);
  Some (a, b, b', e).
Fixpoint l_eval_all (pt : list F) (inv alpha beta : F) (a b c : list (list (F * nat))) : option (list (aff K1) * list (aff K1) * list (aff K2) * list (aff K1)) :=
  match a, b, c with
  | at_ :: a, bt :: b, ct :: c =>
      try (x, y, z, e) <- l_eval_one pt inv alpha beta at_ bt ct; try (xs, ys, zs, es) <- l_eval_all pt inv alpha beta a b c;
      Some (x :: xs, y :: ys, z :: zs, e :: es)
  | _, _, _ => Some ([], [], [], [])
  end.
Definition l_eval (len : nat) (pt : list F) (inv alpha beta : F) (a b c : list (list (F * nat))) : option (list (aff K1) * list (aff K1) * list (aff K2) * list (aff K1)) :=
  if Nat.eqb len (length a) && Nat.eqb len (length b) && Nat.eqb len (length c) then l_eval_all pt inv alpha beta a b c else None.
(** verifier.rs:50-64 [prepare]. *)
Definition l_prepare (vk : vkey) : option pvkey :=
  try b <- go_prepare o (cvk_beta_g2 _ _ vk);
  try e <- go_pairing o [(cvk_alpha_g1 _ _ vk, b)];
  try g <- go_prepare o (aff_neg K2 (cvk_gamma_g2 _ _ vk));
  try d <- go_prepare o (aff_neg K2 (cvk_delta_g2 _ _ vk));
  Some (mkCPvk K1 T prep e g d (cvk_ic _ _ vk)).
(** zksnark.rs:17-123 [setup], after [synthesize]. *)
Definition l_setup (cs : r1cs F) (alpha beta gamma delta tau : F) : outcome (params * pvkey) :=
  need fft <- go_fft o (fft_log (r_m cs));
  need gi <- go_invert o gamma;
  need di <- go_invert o delta;
  match gi, di with
  | None, _ | _, None => Failed ProverInversionFailed
  | Some gamma_inverse, Some delta_inverse =>
      let powers_of_tau := powers F 1 tau (r_m cs) in
      need z <- go_z o fft tau;
      let coeff := z * delta_inverse in
      need h <- map_opt (fun p => l_into1 g1 (p * coeff)) (firstn (r_m cs - 1) powers_of_tau);
      need lag <- idft F fft powers_of_tau;
      let l := length (r_x cs) in
      let m_l_1 := length (r_w cs) in
      need (a_x, a_w) <- x_and_w F (r_a cs) l m_l_1;
      need (b_x, b_w) <- x_and_w F (r_b cs) l m_l_1;
      need (c_x, c_w) <- x_and_w F (r_c cs) l m_l_1;
      need (a_i, b1_i, b2_i, ic) <- l_eval l lag gamma_inverse alpha beta a_x b_x c_x;
      need (a_u, b1_u, b2_u, lq) <- l_eval m_l_1 lag delta_inverse alpha beta a_w b_w c_w;
      need alpha_g1 <- l_into1 g1 alpha;
      need beta_g1 <- l_into1 g1 beta;
      need beta_g2 <- l_into2 g2 beta;
      need gamma_g2 <- l_into2 g2 gamma;
      need delta_g1 <- l_into1 g1 delta;
      need delta_g2 <- l_into2 g2 delta;
      let vk := mkCVk K1 K2 alpha_g1 beta_g1 beta_g2 gamma_g2 delta_g1 delta_g2 ic in
      need pvk <- l_prepare vk;
      Done (mkCParams K1 K2 vk h lq (a_i ++ a_u) (b1_i ++ b1_u) (b2_i ++ b2_u), pvk)
  end.
(** prover.rs:37-52. *)
Definition l_quotient_poly (fft : fft F) (a b c : list F) : option (list F) :=
  try a <- idft F fft a; try b <- idft F fft b; try c <- idft F fft c;
  try a <- coset_dft F fft a; try b <- coset_dft F fft b; try c <- coset_dft F fft c;
  try q <- go_divide o fft (points_sub F (points_mul F a b) c);
  coset_idft F fft q.
Definition l_msm1 (bases : list (aff K1)) (coeffs : list F) : option (proj K1) := l_msm K1 (go_1 o) P bases (map limbs coeffs).
Definition l_msm2 (bases : list (aff K2)) (coeffs : list F) : option (proj K2) := l_msm K2 (go_2 o) P bases (map limbs coeffs).
(** prover.rs:21-99 [create_proof], after [synthesize]. *)
Definition l_prove (pk : params) (cs : r1cs F) (r s : F) : outcome proof :=
  let vk := cp_vk _ _ pk in
  need fft <- go_fft o (fft_log (r_m cs));
  need (a, b, c) <- evaluate_all F cs;
  need q <- l_quotient_poly fft a b c;
  need q <- l_msm1 (cp_h _ _ pk) q;
  let input := r_x cs in
  let aux := r_w cs in
  need l <- l_msm1 (cp_l _ _ pk) aux;
  need a_inputs <- l_msm1 (cp_a _ _ pk) input;
  need ta <- tail_from (length input) (cp_a _ _ pk);
  need a_aux <- l_msm1 ta aux;
  need b_g1_inputs <- l_msm1 (cp_b_g1 _ _ pk) input;
  need tb <- tail_from (length input) (cp_b_g1 _ _ pk);
  need b_g1_aux <- l_msm1 tb aux;
  need b_g2_inputs <- l_msm2 (cp_b_g2 _ _ pk) input;
  need tb2 <- tail_from (length input) (cp_b_g2 _ _ pk);
  need b_g2_aux <- l_msm2 tb2 aux;
  if aff_is_identity K1 (cvk_delta_g1 _ _ vk) || aff_is_identity K2 (cvk_delta_g2 _ _ vk) then Failed ProverSubVersionCrsAttack
  else
    need delta_r <- l_mul K1 (go_1 o) P (cvk_delta_g1 _ _ vk) (limbs r);
    need g_a <- co_pa K1 (go_1 o) delta_r (cvk_alpha_g1 _ _ vk);
    need delta_s <- l_mul K2 (go_2 o) P (cvk_delta_g2 _ _ vk) (limbs s);
    need g_b <- co_pa K2 (go_2 o) delta_s (cvk_beta_g2 _ _ vk);
    need delta_rs <- l_scalar K1 (go_1 o) P delta_r (limbs s);
    need alpha_s <- l_mul K1 (go_1 o) P (cvk_alpha_g1 _ _ vk) (limbs s);
    need beta_r <- l_mul K1 (go_1 o) P (cvk_beta_g1 _ _ vk) (limbs r);
    need g_c <- co_pp K1 (go_1 o) delta_rs alpha_s;
    need g_c <- co_pp K1 (go_1 o) g_c beta_r;
    need a_answer <- co_pp K1 (go_1 o) a_inputs a_aux;
    need g_a <- co_pp K1 (go_1 o) g_a a_answer;
    need a_answer_s <- l_scalar K1 (go_1 o) P a_answer (limbs s);
    need g_c <- co_pp K1 (go_1 o) g_c a_answer_s;
    need b1_answer <- co_pp K1 (go_1 o) b_g1_inputs b_g1_aux;
    need b2_answer <- co_pp K2 (go_2 o) b_g2_inputs b_g2_aux;
    need g_b <- co_pp K2 (go_2 o) g_b b2_answer;
    need b1_answer_r <- l_scalar K1 (go_1 o) P b1_answer (limbs r);
    need g_c <- co_pp K1 (go_1 o) g_c b1_answer_r;
    need ql <- co_pp K1 (go_1 o) q l;
    need g_c <- co_pp K1 (go_1 o) g_c ql;
    need a <- co_into K1 (go_1 o) g_a;
    need b <- co_into K2 (go_2 o) g_b;
    need c <- co_into K1 (go_1 o) g_c;
    Done (mkCProof K1 K2 a b c).
(** proof.rs:26-30. *)
Fixpoint l_inputs (acc : proj K1) (l : list (F * aff K1)) : option (proj K1) :=
  match l with
  | [] => Some acc
  | (i, b) :: l => try t <- l_mul K1 (go_1 o) P b (limbs i); try acc <- co_pp K1 (go_1 o) acc t; l_inputs acc l
  end.
(** proof.rs:14-50 [Proof::verify]. *)
Definition l_verify (vk : pvkey) (pf : proof) (public_inputs : list F) : outcome unit :=
  match cpvk_ic _ _ _ vk with
  | [] => Panicked
  | ic0 :: ic =>
      if negb (Nat.eqb (length public_inputs) (length ic)) then Failed (InconsistentPublicInputsLen (length ic) (length public_inputs))
      else
        need acc <- l_inputs (to_extended K1 ic0) (combine public_inputs ic);
        need b <- go_prepare o (cpf_b _ _ pf);
        need acc <- co_into K1 (go_1 o) acc;
        need pairing <- go_pairing o [(cpf_a _ _ pf, b); (acc, cpvk_neg_gamma _ _ _ vk); (cpf_c _ _ pf, cpvk_neg_delta _ _ _ vk)];
        if eqT pairing (cpvk_alpha_beta _ _ _ vk) then Done tt else Failed ProofVerificationError
  end.
End Protocol.
