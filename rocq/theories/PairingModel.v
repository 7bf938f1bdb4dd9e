(** The Miller loop: bn254/src/g2.rs and bn254/src/pairing.rs. *)
From Coq Require Import ZArith List Bool.
From Verif Require Import LimbModel Algebra ExtModel ExtParams.
Import ListNotations.
Local Open Scope Z_scope.

Section Pairing.
Variable F : Fld.
Local Notation mul := (q2_mul F). Local Notation add := (q2_add F). Local Notation sub := (q2_sub F).
Local Notation sq := (q2_sq F). Local Notation dbl := (q2_dbl F). Local Notation neg := (q2_neg F).

(** g2.rs:194 [PairingCoeff]. *)
Definition coeff : Type := q2 F * q2 F * q2 F.
(** g2.rs:79-83 [G2Projective]; the Miller loop reads the triple as Jacobian coordinates. *)
Record jac := Jac { jx : q2 F; jy : q2 F; jz : q2 F }.

(** g2.rs:213-237 [double_eval] (the updated point and the coefficients). *)
Definition double_eval (t : jac) : jac * coeff :=
  let tmp0 := sq (jx t) in
  let tmp1 := sq (jy t) in
  let tmp2 := sq tmp1 in
  let tmp3 := sub (sub (sq (add tmp1 (jx t))) tmp0) tmp2 in
  let tmp3 := dbl tmp3 in
  let tmp4 := add (dbl tmp0) tmp0 in
  let tmp6 := add (jx t) tmp4 in
  let tmp5 := sq tmp4 in
  let zsquared := sq (jz t) in
  let x := sub tmp5 (dbl tmp3) in
  let z := sub (sub (sq (add (jz t) (jy t))) tmp1) zsquared in
  let y := sub (mul (sub tmp3 x) tmp4) (dbl (dbl (dbl tmp2))) in
  let tmp3 := neg (dbl (mul tmp4 zsquared)) in
  let tmp6 := sub (sub (sq tmp6) tmp0) tmp5 in
  let tmp1 := dbl (dbl tmp1) in
  let tmp6 := sub tmp6 tmp1 in
  let tmp0 := mul z zsquared in
  let tmp0 := dbl tmp0 in
  (Jac x y z, (tmp0, tmp3, tmp6)).

(** g2.rs:239-264 [add_eval]; [rx], [ry] are the affine coordinates of [rhs]. *)
Definition add_eval (t : jac) (rx ry : q2 F) : jac * coeff :=
  let zsquared := sq (jz t) in
  let ysquared := sq ry in
  let t0 := mul zsquared rx in
  let t1 := mul (sub (sub (sq (add ry (jz t))) ysquared) zsquared) zsquared in
  let t2 := sub t0 (jx t) in
  let t3 := sq t2 in
  let t4 := dbl (dbl t3) in
  let t5 := mul t4 t2 in
  let t6 := sub t1 (dbl (jy t)) in
  let t9 := mul t6 rx in
  let t7 := mul t4 (jx t) in
  let x := sub (sub (sq t6) t5) (dbl t7) in
  let z := sub (sub (sq (add (jz t) t2)) zsquared) t3 in
  let t10 := add ry z in
  let t8 := mul (sub t7 x) t6 in
  let t0 := mul (jy t) t5 in
  let y := sub t8 (dbl t0) in
  let t10 := sub (sq t10) ysquared in
  let ztsquared := sq z in
  let t10 := sub t10 ztsquared in
  let t9 := sub (dbl t9) t10 in
  let t10 := dbl z in
  let t1 := neg (dbl t6) in
  (Jac x y z, (t10, t1, t9)).

(** g2.rs:17-21 [G2Affine]; the G1 point of g1.rs has the same shape over Fq. *)
Record affine2 := Aff2 { a2x : q2 F; a2y : q2 F; a2inf : bool }.
Record affine1 := Aff1 { a1x : F; a1y : F; a1inf : bool }.
(** g2.rs:197-201 [G2PairingAffine]. *)
Record prepared := Prep { coeffs : list coeff; pinf : bool }.

(** The table entries FROBENIUS_COEFF_FQ6_C1[1], [2] and XI_TO_Q_MINUS_1_OVER_2, and the digits
    naf[63], ..., naf[0] in the order the loops read them. *)
Variables (c61 c62 xi_half : q2 F) (digits : list Z).

(** g2.rs:278-291, the loop body repeated over the digits. *)
Fixpoint prepare_loop (ds : list Z) (gx gy : q2 F) (t : jac) : jac * list coeff :=
  match ds with
  | [] => (t, [])
  | d :: r =>
      let '(t, c) := double_eval t in
      let '(t, cs) := if d =? 1 then let '(t, c') := add_eval t gx gy in (t, [c; c'])
                      else if d =? -1 then let '(t, c') := add_eval t gx (neg gy) in (t, [c; c'])
                      else (t, [c]) in
      let '(t, cs') := prepare_loop r gx gy t in (t, cs ++ cs')
  end.
(** g2.rs:267-314 [G2PairingAffine::from]. [q.x.0[1] = -q.x.0[1]] is conjugation. *)
Definition prepare (g : affine2) : prepared :=
  if a2inf g then Prep [] true else
  let gx := a2x g in let gy := a2y g in
  let '(t, cs) := prepare_loop digits gx gy (Jac gx gy (q2_1 F)) in
  let '(t, c1) := add_eval t (mul (Q2 (c0 gx) (- c1 gx)%fld) c61) (mul (Q2 (c0 gy) (- c1 gy)%fld) xi_half) in
  let '(t, c2) := add_eval t (mul gx c62) gy in
  Prep (cs ++ [c1; c2]) false.

(** pairing.rs:51-53 (also 57-59, 62-64, 70-72, 74-76): one coefficient of every pair is consumed;
    [None] = [unwrap] on an exhausted iterator. *)
Definition cursor : Type := (F * F) * list coeff.
Fixpoint step_pairs (acc : q12 F) (ps : list cursor) : option (q12 F * list cursor) :=
  match ps with
  | [] => Some (acc, [])
  | (p, []) :: r => None
  | (p, c :: cs) :: r =>
      match step_pairs (untwist F acc c (fst p) (snd p)) r with
      | None => None
      | Some (acc, r) => Some (acc, (p, cs) :: r)
      end
  end.
Definition bind {A B} (x : option A) (f : A -> option B) : option B := match x with None => None | Some a => f a end.
(** pairing.rs:47-68; [first] is [i == len - 1], where no squaring happens. *)
Fixpoint miller_loop (first : bool) (ds : list Z) (acc : q12 F) (ps : list cursor) : option (q12 F * list cursor) :=
  match ds with
  | [] => Some (acc, ps)
  | d :: r =>
      let acc := if first then acc else q12_sq F acc in
      bind (step_pairs acc ps) (fun s => let '(acc, ps) := s in
      bind (if (d =? 1) || (d =? -1) then step_pairs acc ps else Some (acc, ps)) (fun s => let '(acc, ps) := s in
      miller_loop false r acc ps))
  end.
(** pairing.rs:38-43: the filter and the cursors. *)
Fixpoint cursors (pairs : list (affine1 * prepared)) : list cursor :=
  match pairs with
  | [] => []
  | (a, b) :: r => if negb (a1inf a) && negb (pinf b) then ((a1x a, a1y a), coeffs b) :: cursors r else cursors r
  end.
(** pairing.rs:37-83 [multi_miller_loop]; [None] also stands for the failed [assert_eq!]. *)
Definition multi_miller_loop (pairs : list (affine1 * prepared)) : option (q12 F) :=
  bind (miller_loop true digits (q12_1 F) (cursors pairs)) (fun s => let '(acc, ps) := s in
  bind (step_pairs acc ps) (fun s => let '(acc, ps) := s in
  bind (step_pairs acc ps) (fun s => let '(acc, ps) := s in
  if forallb (fun p : cursor => match snd p with [] => true | _ => false end) ps then Some acc else None))).
(** pairing.rs:31-34 [pairing]. *)
Definition pairing (fexp : q12 F -> option (q12 F)) (g1 : affine1) (g2 : affine2) : option (q12 F) :=
  bind (multi_miller_loop [(g1, prepare g2)]) fexp.
End Pairing.

(** The digits as the loops visit them: indices 63, 62, ..., 0 (pairing.rs:47, 55; g2.rs:278, 280). *)
Definition ate_digits : list Z := rev (firstn 64 SIX_U_PLUS_2_NAF).

(** bn254/src/gt.rs: the target group, written additively.  38-53 [Add]: the product in Fq12. *)
Definition gt_add (F : Fld) (a b : q12 F) : q12 F := q12_mul F a b.
(** gt.rs:80-95 [Neg]: conjugation; 97-113 [Sub]. *)
Definition gt_neg (F : Fld) (a : q12 F) : q12 F := q12_conj F a.
Definition gt_sub (F : Fld) (a b : q12 F) : q12 F := gt_add F a (gt_neg F b).
(** gt.rs:12 [ADDITIVE_IDENTITY], 23-27 [IntGroup::zero]. *)
Definition gt_identity (F : Fld) : q12 F := q12_1 F.
Definition gt_zero (F : Fld) : q12 F := q12_0 F.
