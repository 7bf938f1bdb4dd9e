(** The pairing of ExtModel.v and PairingModel.v once more, with the [square] and the [invert] of the base field as
    parameters: the limb functions of Fq lose a carry in [square] on some elements (C02), which those files leave out.
    The Miller loop itself ([multi_miller_loop]) squares only in Fq12, where the code multiplies (fqn.rs:537-544), and is
    used as it is; the functions that square are the preparation of the G2 point and the final exponentiation. *)
From Coq Require Import ZArith List Bool.
From Verif Require Import LimbModel FieldModel FieldSpec FieldProofs Algebra ExtModel ExtParams ExtFrob PairingModel.
Import ListNotations.
Local Open Scope Z_scope.

Section PairSq.
Variable F : Fld.
Variable sq1 : F -> F.
Variable inv1 : F -> option F.
Local Notation mul := (q2_mul F). Local Notation add := (q2_add F). Local Notation sub := (q2_sub F).
Local Notation dbl := (q2_dbl F). Local Notation neg := (q2_neg F). Local Notation nonres := (q2_nonres F).

(** fqn.rs:365-369 [square_ext_field] of Fq2. *)
Definition s_sq (a : q2 F) : q2 F := Q2 (sq1 (c0 a) - sq1 (c1 a))%fld (kdbl (c0 a * c1 a)%fld).
(** fqn.rs:348-357 [get_invert] of Fq2; [None] = the [unwrap] panics. *)
Definition s_q2_invert_full (a : q2 F) : option (option (q2 F)) :=
  if q2_is0 F a then Some None
  else match inv1 (sq1 (c0 a) + sq1 (c1 a))%fld with
       | None => None
       | Some t => Some (Some (Q2 (t * c0 a)%fld (t * - c1 a)%fld))
       end.
Definition s_q2_invert (a : q2 F) : option (q2 F) := match s_q2_invert_full a with Some r => r | None => None end.
(** fqn.rs:458-475 [square_ext_field] of Fq6. *)
Definition s_q6_sq (a : q6 F) : q6 F :=
  let s0 := s_sq (d0 a) in
  let ab := mul (d0 a) (d1 a) in
  let s1 := dbl ab in
  let s2 := d0 a in let s2 := sub s2 (d1 a) in let s2 := add s2 (d2 a) in let s2 := s_sq s2 in
  let bc := mul (d1 a) (d2 a) in
  let s3 := dbl bc in
  let s4 := s_sq (d2 a) in
  Q6 (add (nonres s3) s0) (add (nonres s4) s1) (sub (sub (add (add s1 s2) s3) s0) s4).
(** fqn.rs:403-417 [get_invert] of Fq6. *)
Definition s_q6_invert (a : q6 F) : option (q6 F) :=
  let e0 := sub (s_sq (d0 a)) (nonres (mul (d1 a) (d2 a))) in
  let e1 := sub (nonres (s_sq (d2 a))) (mul (d0 a) (d1 a)) in
  let e2 := sub (s_sq (d1 a)) (mul (d0 a) (d2 a)) in
  let tmp := nonres (add (mul (d1 a) e2) (mul (d2 a) e1)) in
  let tmp := add tmp (mul (d0 a) e0) in
  match s_q2_invert tmp with
  | Some t => Some (Q6 (mul t e0) (mul t e1) (mul t e2))
  | None => None
  end.
(** fqn.rs:517-521 [get_invert] of Fq12. *)
Definition s_q12_invert (a : q12 F) : option (q12 F) :=
  match s_q6_invert (q6_sub F (s_q6_sq (e0 a)) (q6_nonres F (s_q6_sq (e1 a)))) with
  | Some t => Some (Q12 (q6_mul F (e0 a) t) (q6_mul F (e1 a) (q6_neg F t)))
  | None => None
  end.
(** fqn.rs:40-51 [fp4_square], 56-92 [cyclotomic_square], 95-104 [cycolotomic_exp]. *)
Definition s_fp4_square (a b : q2 F) : q2 F * q2 F :=
  let t0 := s_sq a in
  let t1 := s_sq b in
  let t2 := nonres t1 in
  let r0 := add t2 t0 in
  let t2 := add a b in let t2 := s_sq t2 in let t2 := sub t2 t0 in
  (r0, sub t2 t1).
Definition s_cyclotomic_square (f : q12 F) : q12 F :=
  let z0 := d0 (e0 f) in let z4 := d1 (e0 f) in let z3 := d2 (e0 f) in
  let z2 := d0 (e1 f) in let z1 := d1 (e1 f) in let z5 := d2 (e1 f) in
  let (t0, t1) := s_fp4_square z0 z1 in
  let z0 := sub t0 z0 in let z0 := add (dbl z0) t0 in
  let z1 := add t1 z1 in let z1 := add (dbl z1) t1 in
  let (t0, t1) := s_fp4_square z2 z3 in
  let (t2, t3) := s_fp4_square z4 z5 in
  let z4 := sub t0 z4 in let z4 := add (dbl z4) t0 in
  let z5 := add t1 z5 in let z5 := add (dbl z5) t1 in
  let t0 := nonres t3 in
  let z2 := add t0 z2 in let z2 := add (dbl z2) t0 in
  let z3 := sub t2 z3 in let z3 := add (dbl z3) t2 in
  Q12 (Q6 z0 z4 z3) (Q6 z2 z1 z5).
Definition s_cyclotomic_exp (x : Z) (f : q12 F) : q12 F :=
  fold_left (fun res bit => let res := s_cyclotomic_square res in if Z.eqb bit 1 then q12_mul F res f else res)
    (word_bits_be x) (q12_1 F).
(** fqn.rs:39-150 [final_exp]. *)
Definition s_final_exp (x : Z) (tab0 : list F) (tab1 tab2 tab12 : list (q2 F)) (f : q12 F) : option (q12 F) :=
  let frobs := q12_frobs F tab0 tab1 tab2 tab12 in
  let mul := q12_mul F in
  let f1 := q12_conj F f in
  match s_q12_invert f with
  | None => None
  | Some f2 =>
      let f2 := mul f2 f1 in
      let r := mul (frobs f2 2%nat) f2 in
      let fp := frobs r 1%nat in
      let fp2 := frobs r 2%nat in
      let fp3 := frobs fp2 1%nat in
      let fu := s_cyclotomic_exp x r in
      let fu2 := s_cyclotomic_exp x fu in
      let fu3 := s_cyclotomic_exp x fu2 in
      let y3 := q12_conj F (frobs fu 1%nat) in
      let fu2p := frobs fu2 1%nat in
      let fu3p := frobs fu3 1%nat in
      let y2 := frobs fu2 2%nat in
      let y0 := mul (mul fp fp2) fp3 in
      let y1 := q12_conj F r in
      let y5 := q12_conj F fu2 in
      let y4 := q12_conj F (mul fu fu2p) in
      let y6 := mul (mul (s_cyclotomic_square (q12_conj F (mul fu3 fu3p))) y4) y5 in
      let t1 := mul (mul y3 y5) y6 in
      let y6 := mul y6 y2 in
      let t1 := s_cyclotomic_square (mul (s_cyclotomic_square t1) y6) in
      let t0 := mul t1 y1 in
      let t1 := mul t1 y0 in
      Some (mul (s_cyclotomic_square t0) t1)
  end.

(** g2.rs:213-237 [double_eval]. *)
Definition s_double_eval (t : jac F) : jac F * coeff F :=
  let tmp0 := s_sq (jx F t) in
  let tmp1 := s_sq (jy F t) in
  let tmp2 := s_sq tmp1 in
  let tmp3 := sub (sub (s_sq (add tmp1 (jx F t))) tmp0) tmp2 in
  let tmp3 := dbl tmp3 in
  let tmp4 := add (dbl tmp0) tmp0 in
  let tmp6 := add (jx F t) tmp4 in
  let tmp5 := s_sq tmp4 in
  let zsquared := s_sq (jz F t) in
  let x := sub tmp5 (dbl tmp3) in
  let z := sub (sub (s_sq (add (jz F t) (jy F t))) tmp1) zsquared in
  let y := sub (mul (sub tmp3 x) tmp4) (dbl (dbl (dbl tmp2))) in
  let tmp3 := neg (dbl (mul tmp4 zsquared)) in
  let tmp6 := sub (sub (s_sq tmp6) tmp0) tmp5 in
  let tmp1 := dbl (dbl tmp1) in
  let tmp6 := sub tmp6 tmp1 in
  let tmp0 := mul z zsquared in
  let tmp0 := dbl tmp0 in
  (Jac F x y z, (tmp0, tmp3, tmp6)).
(** g2.rs:239-264 [add_eval]. *)
Definition s_add_eval (t : jac F) (rx ry : q2 F) : jac F * coeff F :=
  let zsquared := s_sq (jz F t) in
  let ysquared := s_sq ry in
  let t0 := mul zsquared rx in
  let t1 := mul (sub (sub (s_sq (add ry (jz F t))) ysquared) zsquared) zsquared in
  let t2 := sub t0 (jx F t) in
  let t3 := s_sq t2 in
  let t4 := dbl (dbl t3) in
  let t5 := mul t4 t2 in
  let t6 := sub t1 (dbl (jy F t)) in
  let t9 := mul t6 rx in
  let t7 := mul t4 (jx F t) in
  let x := sub (sub (s_sq t6) t5) (dbl t7) in
  let z := sub (sub (s_sq (add (jz F t) t2)) zsquared) t3 in
  let t10 := add ry z in
  let t8 := mul (sub t7 x) t6 in
  let t0 := mul (jy F t) t5 in
  let y := sub t8 (dbl t0) in
  let t10 := sub (s_sq t10) ysquared in
  let ztsquared := s_sq z in
  let t10 := sub t10 ztsquared in
  let t9 := sub (dbl t9) t10 in
  let t10 := dbl z in
  let t1 := neg (dbl t6) in
  (Jac F x y z, (t10, t1, t9)).

Variables (c61 c62 xi_half : q2 F) (digits : list Z).
(** g2.rs:278-291 and 267-314 [G2PairingAffine::from]. *)
Fixpoint s_prepare_loop (ds : list Z) (gx gy : q2 F) (t : jac F) : jac F * list (coeff F) :=
  match ds with
  | [] => (t, [])
  | d :: r =>
      let '(t, c) := s_double_eval t in
      let '(t, cs) := if d =? 1 then let '(t, c') := s_add_eval t gx gy in (t, [c; c'])
                      else if d =? -1 then let '(t, c') := s_add_eval t gx (neg gy) in (t, [c; c'])
                      else (t, [c]) in
      let '(t, cs') := s_prepare_loop r gx gy t in (t, cs ++ cs')
  end.
Definition s_prepare (g : affine2 F) : prepared F :=
  if a2inf F g then Prep F [] true else
  let gx := a2x F g in let gy := a2y F g in
  let '(t, cs) := s_prepare_loop digits gx gy (Jac F gx gy (q2_1 F)) in
  let '(t, c1') := s_add_eval t (mul (Q2 (c0 gx) (- c1 gx)%fld) c61) (mul (Q2 (c0 gy) (- c1 gy)%fld) xi_half) in
  let '(t, c2') := s_add_eval t (mul gx c62) gy in
  Prep F (cs ++ [c1'; c2']) false.
(** pairing.rs:31-34 [pairing]. *)
Definition s_pairing (fexp : q12 F -> option (q12 F)) (g1 : affine1 F) (g2 : affine2 F) : option (q12 F) :=
  bind (multi_miller_loop F digits [(g1, s_prepare g2)]) fexp.

(** ** The elements of Fq2 squared in an exact run (specification of the exactness conditions). *)
Definition double_eval_squares (t : jac F) : list (q2 F) :=
  let x2 := mul (jx F t) (jx F t) in let y2 := mul (jy F t) (jy F t) in let m := add (dbl x2) x2 in
  [jx F t; jy F t; y2; add y2 (jx F t); m; jz F t; add (jz F t) (jy F t); add (jx F t) m].
Definition add_eval_squares (t : jac F) (rx ry : q2 F) : list (q2 F) :=
  let z2 := mul (jz F t) (jz F t) in let h := sub (mul z2 rx) (jx F t) in
  let t' := fst (add_eval F t rx ry) in
  [jz F t; ry; add ry (jz F t); h;
   sub (mul (sub (sub (mul (add ry (jz F t)) (add ry (jz F t))) (mul ry ry)) z2) z2) (dbl (jy F t));
   add (jz F t) h; add ry (jz F t'); jz F t'].
Definition step_squares2 (d : Z) (gx gy : q2 F) (t : jac F) : list (q2 F) :=
  double_eval_squares t ++
  (if d =? 1 then add_eval_squares (fst (double_eval F t)) gx gy
   else if d =? -1 then add_eval_squares (fst (double_eval F t)) gx (neg gy) else []).
(** The point after one digit. *)
Definition step_point (d : Z) (gx gy : q2 F) (t : jac F) : jac F :=
  let t := fst (double_eval F t) in
  if d =? 1 then fst (add_eval F t gx gy) else if d =? -1 then fst (add_eval F t gx (neg gy)) else t.
Fixpoint loop_squares (ds : list Z) (gx gy : q2 F) (t : jac F) : list (q2 F) :=
  match ds with [] => [] | d :: r => step_squares2 d gx gy t ++ loop_squares r gx gy (step_point d gx gy t) end.
Definition prepare_squares (g : affine2 F) : list (q2 F) :=
  if a2inf F g then [] else
  let gx := a2x F g in let gy := a2y F g in
  let t := fold_left (fun t d => step_point d gx gy t) digits (Jac F gx gy (q2_1 F)) in
  let x1 := mul (q2_conj F gx) c61 in let y1 := mul (q2_conj F gy) xi_half in
  loop_squares digits gx gy (Jac F gx gy (q2_1 F)) ++ add_eval_squares t x1 y1 ++
  add_eval_squares (fst (add_eval F t x1 y1)) (mul gx c62) gy.

Definition fp4_squares (a b : q2 F) : list (q2 F) := [a; b; add a b].
Definition cyclotomic_squares (f : q12 F) : list (q2 F) :=
  fp4_squares (d0 (e0 f)) (d1 (e1 f)) ++ fp4_squares (d0 (e1 f)) (d2 (e0 f)) ++ fp4_squares (d1 (e0 f)) (d2 (e1 f)).
Fixpoint exp_squares_from (bits : list Z) (f res : q12 F) : list (q2 F) :=
  match bits with
  | [] => []
  | b :: r => cyclotomic_squares res ++
      exp_squares_from r f (if b =? 1 then q12_mul F (cyclotomic_square F res) f else cyclotomic_square F res)
  end.
Definition exp_squares (x : Z) (f : q12 F) : list (q2 F) := exp_squares_from (word_bits_be x) f (q12_1 F).
Definition q6_sq_squares (a : q6 F) : list (q2 F) := [d0 a; add (sub (d0 a) (d1 a)) (d2 a); d2 a].
(** The element of Fq6 that the inversion in Fq12 inverts, and the element of Fq2 that this inverts in turn. *)
Definition norm12 (a : q12 F) : q6 F := q6_sub F (q6_sq F (e0 a)) (q6_nonres F (q6_sq F (e1 a))).
Definition norm6 (a : q6 F) : q2 F :=
  let e0 := sub (q2_sq F (d0 a)) (nonres (mul (d1 a) (d2 a))) in
  let e1 := sub (nonres (q2_sq F (d2 a))) (mul (d0 a) (d1 a)) in
  let e2 := sub (q2_sq F (d1 a)) (mul (d0 a) (d2 a)) in
  add (nonres (add (mul (d1 a) e2) (mul (d2 a) e1))) (mul (d0 a) e0).
Definition invert_squares (a : q12 F) : list (q2 F) :=
  q6_sq_squares (e0 a) ++ q6_sq_squares (e1 a) ++ [d0 (norm12 a); d2 (norm12 a); d1 (norm12 a)].
(** The Fq2 element whose norm is inverted in Fq. *)
Definition inverted2 (a : q12 F) : q2 F := norm6 (norm12 a).
Definition final_exp_squares (x : Z) (tab0 : list F) (tab1 tab2 tab12 : list (q2 F)) (f : q12 F) : list (q2 F) :=
  let frobs := q12_frobs F tab0 tab1 tab2 tab12 in
  let mul := q12_mul F in
  match q12_invert F f with
  | None => invert_squares f
  | Some f2 =>
      let f2 := mul f2 (q12_conj F f) in
      let r := mul (frobs f2 2%nat) f2 in
      let fu := cyclotomic_exp F x r in
      let fu2 := cyclotomic_exp F x fu in
      let fu3 := cyclotomic_exp F x fu2 in
      let y5 := q12_conj F fu2 in
      let c := q12_conj F (mul fu3 (frobs fu3 1%nat)) in
      let y6 := mul (mul (cyclotomic_square F c) (q12_conj F (mul fu (frobs fu2 1%nat)))) y5 in
      let t := mul (mul (q12_conj F (frobs fu 1%nat)) y5) y6 in
      let s := mul (cyclotomic_square F t) (mul y6 (frobs fu2 2%nat)) in
      invert_squares f ++ exp_squares x r ++ exp_squares x fu ++ exp_squares x fu2 ++
      cyclotomic_squares c ++ cyclotomic_squares t ++ cyclotomic_squares s ++
      cyclotomic_squares (mul (cyclotomic_square F s) (q12_conj F r))
  end.
End PairSq.
