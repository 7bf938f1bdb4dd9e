(** The operations of the pairing on integers that stand for residues.  Products are formed first and reduced
    afterwards; [phi] reads a reduced integer, [psi] a sum of products.  Over any field with such a reading. *)
From Coq Require Import ZArith List Bool Lia Ring Field.
From Verif Require Import LimbModel Algebra ExtModel ExtProofs PairingModel.
Import ListNotations.
Local Open Scope Z_scope.

Definition Z2 : Type := Z * Z.
Definition Z6 : Type := Z2 * Z2 * Z2.
Definition Z12 : Type := Z6 * Z6.
(** ** Linear operations. *)
Definition a2 (a b : Z2) : Z2 := let (x, y) := a in let (u, v) := b in (x + u, y + v).
Definition s2 (a b : Z2) : Z2 := let (x, y) := a in let (u, v) := b in (x - u, y - v).
Definition n2 (a : Z2) : Z2 := let (x, y) := a in (- x, - y).
Definition db2 (a : Z2) : Z2 := let (x, y) := a in (Z.double x, Z.double y).
Definition cj2 (a : Z2) : Z2 := let (x, y) := a in (x, - y).
Definition nr2 (a : Z2) : Z2 :=
  let (x, y) := a in (Z.double (Z.double (Z.double x)) + (x - y), Z.double (Z.double (Z.double y)) + (x + y)).
Definition a6 (a b : Z6) : Z6 := let '(x, y, z) := a in let '(u, v, w) := b in (a2 x u, a2 y v, a2 z w).
Definition s6 (a b : Z6) : Z6 := let '(x, y, z) := a in let '(u, v, w) := b in (s2 x u, s2 y v, s2 z w).
Definition n6 (a : Z6) : Z6 := let '(x, y, z) := a in (n2 x, n2 y, n2 z).
Definition db6 (a : Z6) : Z6 := let '(x, y, z) := a in (db2 x, db2 y, db2 z).
Definition nr6 (a : Z6) : Z6 := let '(x, y, z) := a in (nr2 z, x, y).
Definition cj12 (a : Z12) : Z12 := let (x, y) := a in (x, n6 y).

Section Lin.
Variable G : Fld.
Add Field lingf : (kth G).
Variable h : Z -> G.
Hypothesis h_add : forall a b, h (a + b) = kadd (h a) (h b).
Lemma h_0 : h 0 = k0.
Proof. pose proof (h_add 0 0) as H. change (0 + 0) with 0 in H. transitivity (ksub (kadd (h 0) (h 0)) (h 0)); [ring|]. rewrite <- H. ring. Qed.
Lemma h_opp a : h (- a) = kopp (h a).
Proof. pose proof (h_add a (- a)) as H. rewrite Z.add_opp_diag_r, h_0 in H. transitivity (ksub (kadd (h a) (h (- a))) (h a)); [ring|]. rewrite <- H. ring. Qed.
Lemma h_sub a b : h (a - b) = ksub (h a) (h b).
Proof. unfold Z.sub. rewrite h_add, h_opp. ring. Qed.
Lemma h_dbl a : h (Z.double a) = kdbl (h a).
Proof. rewrite Z.double_spec. replace (2 * a) with (a + a) by lia. rewrite h_add. reflexivity. Qed.
Definition h2 (a : Z2) : q2 G := let (x, y) := a in Q2 (h x) (h y).
Definition h6 (a : Z6) : q6 G := let '(x, y, z) := a in Q6 (h2 x) (h2 y) (h2 z).
Definition h12 (a : Z12) : q12 G := let (x, y) := a in Q12 (h6 x) (h6 y).
Lemma h2_add a b : h2 (a2 a b) = q2_add G (h2 a) (h2 b). Proof. destruct a, b. cbn. rewrite !h_add. reflexivity. Qed.
Lemma h2_sub a b : h2 (s2 a b) = q2_sub G (h2 a) (h2 b). Proof. destruct a, b. cbn. rewrite !h_sub. reflexivity. Qed.
Lemma h2_neg a : h2 (n2 a) = q2_neg G (h2 a). Proof. destruct a. cbn. rewrite !h_opp. reflexivity. Qed.
Lemma h2_dbl a : h2 (db2 a) = q2_dbl G (h2 a). Proof. destruct a. cbn [h2 db2]. rewrite !h_dbl. reflexivity. Qed.
Lemma h2_conj a : h2 (cj2 a) = q2_conj G (h2 a). Proof. destruct a. cbn. rewrite !h_opp. reflexivity. Qed.
Lemma h2_nonres a : h2 (nr2 a) = q2_nonres G (h2 a). Proof. destruct a. cbn [h2 nr2]. rewrite !h_add, !h_sub, !h_dbl. reflexivity. Qed.
Lemma h6_add a b : h6 (a6 a b) = q6_add G (h6 a) (h6 b). Proof. destruct a as [[x y] z], b as [[u v] w]. cbn [h6 a6]. rewrite !h2_add. reflexivity. Qed.
Lemma h6_sub a b : h6 (s6 a b) = q6_sub G (h6 a) (h6 b). Proof. destruct a as [[x y] z], b as [[u v] w]. cbn [h6 s6]. rewrite !h2_sub. reflexivity. Qed.
Lemma h6_neg a : h6 (n6 a) = q6_neg G (h6 a). Proof. destruct a as [[x y] z]. cbn [h6 n6]. rewrite !h2_neg. reflexivity. Qed.
Lemma h6_dbl a : h6 (db6 a) = q6_dbl G (h6 a). Proof. destruct a as [[x y] z]. cbn [h6 db6]. rewrite !h2_dbl. reflexivity. Qed.
Lemma h6_nonres a : h6 (nr6 a) = q6_nonres G (h6 a). Proof. destruct a as [[x y] z]. cbn [h6 nr6]. rewrite !h2_nonres. reflexivity. Qed.
Lemma h12_conj a : h12 (cj12 a) = q12_conj G (h12 a). Proof. destruct a as [x y]. cbn [h12 cj12]. rewrite h6_neg. reflexivity. Qed.
End Lin.

(** ** Products. *)
Section Num.
Variables (M : Z -> Z -> Z) (red nrm : Z -> Z).
Definition pm2 (a b : Z2) : Z2 :=
  let (x, y) := a in let (u, v) := b in
  let t0 := M x u in let t1 := M y v in let t2 := M (x + y) (u + v) in (t0 - t1, t2 - (t0 + t1)).
Definition ps2 (a : Z2) : Z2 := let (x, y) := a in (M (x + y) (x - y), Z.double (M x y)).
Definition pm6 (a b : Z6) : Z6 :=
  let '(x, y, z) := a in let '(u, v, w) := b in
  let aa := pm2 x u in let bb := pm2 y v in let cc := pm2 z w in
  let t1 := a2 (nr2 (s2 (s2 (pm2 (a2 v w) (a2 y z)) bb) cc)) aa in
  let t3 := s2 (a2 (s2 (pm2 (a2 u w) (a2 x z)) aa) bb) cc in
  let t2 := a2 (s2 (s2 (pm2 (a2 u v) (a2 x y)) aa) bb) (nr2 cc) in
  (t1, t2, t3).
Definition pm01 (a : Z6) (b0 b1 : Z2) : Z6 :=
  let '(x, y, z) := a in
  let aa := pm2 x b0 in let bb := pm2 y b1 in
  let t1 := a2 (nr2 (s2 (pm2 (a2 y z) b1) bb)) aa in
  let t2 := s2 (s2 (pm2 (a2 b0 b1) (a2 x y)) aa) bb in
  let t3 := a2 (s2 (pm2 (a2 x z) b0) aa) bb in
  (t1, t2, t3).
Definition r2 (a : Z2) : Z2 := let (x, y) := a in (red x, red y).
Definition r6 (a : Z6) : Z6 := let '(x, y, z) := a in (r2 x, r2 y, r2 z).
Definition r12 (a : Z12) : Z12 := let (x, y) := a in (r6 x, r6 y).
Definition nn2 (a : Z2) : Z2 := let (x, y) := a in (nrm x, nrm y).
Definition m2 (a b : Z2) : Z2 := r2 (pm2 a b).
Definition sq2 (a : Z2) : Z2 := r2 (ps2 a).
Definition m12 (a b : Z12) : Z12 :=
  let (x, y) := a in let (u, v) := b in
  let aa := pm6 x u in let bb := pm6 y v in
  let w := s6 (s6 (pm6 (a6 y x) (a6 u v)) aa) bb in
  r12 (a6 (nr6 bb) aa, w).
Definition sq12 (a : Z12) : Z12 :=
  let (x, y) := a in
  let ab := pm6 x y in
  let t := s6 (pm6 (a6 (nr6 y) x) (a6 x y)) ab in
  r12 (s6 t (nr6 ab), db6 ab).
Definition m034 (a : Z12) (b0 b3 b4 : Z2) : Z12 :=
  let (x, y) := a in let '(p, q, r) := x in
  let t0 := (pm2 p b0, pm2 q b0, pm2 r b0) in
  let t1 := pm01 y b3 b4 in
  let t2 := pm01 (a6 x y) (a2 b0 b3) b4 in
  r12 (a6 t0 (nr6 t1), s6 (s6 t2 t0) t1).
(** The G1 point is (1, 2). *)
Definition zcoeff : Type := Z2 * Z2 * Z2.
Definition unt (f : Z12) (c : zcoeff) : Z12 := let '(u, v, w) := c in m034 f (db2 u) v w.
(** The cyclotomic square; [nrm] subtracts multiples of the modulus to keep sums small. *)
Definition f4 (a b : Z2) : Z2 * Z2 :=
  let t0 := ps2 a in let t1 := ps2 b in
  (r2 (a2 (nr2 t1) t0), r2 (s2 (s2 (ps2 (a2 a b)) t0) t1)).
Definition csq (f : Z12) : Z12 :=
  let '((z0, z4, z3), (z2, z1, z5)) := f in
  let (t0, t1) := f4 z0 z1 in
  let z0 := a2 (db2 (s2 t0 z0)) t0 in
  let z1 := a2 (db2 (a2 t1 z1)) t1 in
  let (t0, t1) := f4 z2 z3 in
  let (t2, t3) := f4 z4 z5 in
  let z4 := a2 (db2 (s2 t0 z4)) t0 in
  let z5 := a2 (db2 (a2 t1 z5)) t1 in
  let t0 := nr2 t3 in
  let z2 := a2 (db2 (a2 t0 z2)) t0 in
  let z3 := a2 (db2 (s2 t2 z3)) t2 in
  ((nn2 z0, nn2 z4, nn2 z3), (nn2 z2, nn2 z1, nn2 z5)).
(** The steps on points. *)
Definition zjac : Type := Z2 * Z2 * Z2.
Definition zdouble (t : zjac) : zjac * zcoeff :=
  let '(jx, jy, jz) := t in
  let tmp0 := sq2 jx in
  let tmp1 := sq2 jy in
  let tmp2 := sq2 tmp1 in
  let tmp3 := s2 (s2 (sq2 (a2 tmp1 jx)) tmp0) tmp2 in
  let tmp3 := db2 tmp3 in
  let tmp4 := a2 (db2 tmp0) tmp0 in
  let tmp6 := a2 jx tmp4 in
  let tmp5 := sq2 tmp4 in
  let zsquared := sq2 jz in
  let x := nn2 (s2 tmp5 (db2 tmp3)) in
  let z := nn2 (s2 (s2 (sq2 (a2 jz jy)) tmp1) zsquared) in
  let y := nn2 (s2 (m2 (s2 tmp3 x) tmp4) (db2 (db2 (db2 tmp2)))) in
  let tmp3 := n2 (db2 (m2 tmp4 zsquared)) in
  let tmp6 := s2 (s2 (sq2 tmp6) tmp0) tmp5 in
  let tmp1 := db2 (db2 tmp1) in
  let tmp6 := s2 tmp6 tmp1 in
  let tmp0 := m2 z zsquared in
  let tmp0 := db2 tmp0 in
  ((x, y, z), (tmp0, tmp3, nn2 tmp6)).
Definition zadd_eval (t : zjac) (rx ry : Z2) : zjac * zcoeff :=
  let '(jx, jy, jz) := t in
  let zsquared := sq2 jz in
  let ysquared := sq2 ry in
  let t0 := m2 zsquared rx in
  let t1 := m2 (s2 (s2 (sq2 (a2 ry jz)) ysquared) zsquared) zsquared in
  let t2 := s2 t0 jx in
  let t3 := sq2 t2 in
  let t4 := db2 (db2 t3) in
  let t5 := m2 t4 t2 in
  let t6 := s2 t1 (db2 jy) in
  let t9 := m2 t6 rx in
  let t7 := m2 t4 jx in
  let x := nn2 (s2 (s2 (sq2 t6) t5) (db2 t7)) in
  let z := nn2 (s2 (s2 (sq2 (a2 jz t2)) zsquared) t3) in
  let t10 := a2 ry z in
  let t8 := m2 (s2 t7 x) t6 in
  let t0 := m2 jy t5 in
  let y := nn2 (s2 t8 (db2 t0)) in
  let t10 := s2 (sq2 t10) ysquared in
  let ztsquared := sq2 z in
  let t10 := s2 t10 ztsquared in
  let t9 := s2 (db2 t9) t10 in
  let t10 := db2 z in
  let t1 := n2 (db2 t6) in
  ((x, y, z), (t10, t1, nn2 t9)).
Fixpoint zprep_loop (ds : list Z) (gx gy : Z2) (t : zjac) : zjac * list zcoeff :=
  match ds with
  | [] => (t, [])
  | d :: r =>
      let '(t, c) := zdouble t in
      let '(t, cs) := if d =? 1 then let '(t, c') := zadd_eval t gx gy in (t, [c; c'])
                      else if d =? -1 then let '(t, c') := zadd_eval t gx (n2 gy) in (t, [c; c'])
                      else (t, [c]) in
      let '(t, cs') := zprep_loop r gx gy t in (t, cs ++ cs')
  end.
Definition zprep (c61 c62 xih : Z2) (one : Z) (ds : list Z) (gx gy : Z2) : list zcoeff :=
  let '(t, cs) := zprep_loop ds gx gy (gx, gy, (one, 0)) in
  let '(t, c1) := zadd_eval t (m2 (cj2 gx) c61) (m2 (cj2 gy) xih) in
  let '(t, c2) := zadd_eval t (m2 gx c62) gy in
  cs ++ [c1; c2].
Definition zstep (acc : Z12) (cs : list zcoeff) : option (Z12 * list zcoeff) :=
  match cs with [] => None | c :: cs => Some (unt acc c, cs) end.
Fixpoint zmiller_loop (first : bool) (ds : list Z) (acc : Z12) (cs : list zcoeff) : option (Z12 * list zcoeff) :=
  match ds with
  | [] => Some (acc, cs)
  | d :: r =>
      let acc := if first then acc else sq12 acc in
      bind (zstep acc cs) (fun s => let '(acc, cs) := s in
      bind (if (d =? 1) || (d =? -1) then zstep acc cs else Some (acc, cs)) (fun s => let '(acc, cs) := s in
      zmiller_loop false r acc cs))
  end.
Definition zone (one : Z) : Z12 := (((one, 0), (0, 0), (0, 0)), ((0, 0), (0, 0), (0, 0))).
Definition zmiller (one : Z) (ds : list Z) (cs : list zcoeff) : option Z12 :=
  bind (zmiller_loop true ds (zone one) cs) (fun s => let '(acc, cs) := s in
  bind (zstep acc cs) (fun s => let '(acc, cs) := s in
  bind (zstep acc cs) (fun s => let '(acc, cs) := s in
  match cs with [] => Some acc | _ => None end))).
(** The Frobenius powers one and two, with the constants of the tables. *)
Definition zfrob (cj : Z2 -> Z2) (t1 t2 g : Z2) (a : Z12) : Z12 :=
  let '((x, y, z), (u, v, w)) := a in
  ((cj x, m2 (cj y) t1, m2 (cj z) t2), (m2 (cj u) g, m2 (m2 (cj v) t1) g, m2 (m2 (cj w) t2) g)).

(** ** Reading. *)
Variable G : Fld.
Add Field numgf : (kth G). Add Ring numr2 : (q2_ring G).
Variables phi psi : Z -> G.
Hypothesis phi_add : forall a b, phi (a + b) = kadd (phi a) (phi b).
Hypothesis psi_add : forall a b, psi (a + b) = kadd (psi a) (psi b).
Hypothesis psi_mul : forall a b, psi (M a b) = kmul (phi a) (phi b).
Hypothesis phi_red : forall x, phi (red x) = psi x.
Hypothesis phi_nrm : forall x, phi (nrm x) = phi x.
Variable one : Z.
Hypothesis phi_one : phi one = k1.
Notation p2 := (h2 G phi). Notation p6 := (h6 G phi). Notation p12 := (h12 G phi).
Notation w2 := (h2 G psi). Notation w6 := (h6 G psi). Notation w12 := (h12 G psi).
Let phi_sub := h_sub G phi phi_add. Let psi_sub := h_sub G psi psi_add. Let psi_dbl := h_dbl G psi psi_add.
Lemma pm2_ok a b : w2 (pm2 a b) = q2_mul G (p2 a) (p2 b).
Proof.
  destruct a as [x y], b as [u v]. unfold pm2. cbn [h2]. rewrite !psi_sub, psi_add, !psi_mul, !phi_add.
  apply q2_eq; unfold q2_mul; cbn [c0 c1]; ring.
Qed.
Lemma ps2_ok a : w2 (ps2 a) = q2_sq G (p2 a).
Proof.
  destruct a as [x y]. unfold ps2. cbn [h2]. rewrite psi_dbl, !psi_mul, phi_add, phi_sub.
  apply q2_eq; unfold q2_sq, ksq; cbn [c0 c1]; [ring|reflexivity].
Qed.
Lemma r2_ok a : p2 (r2 a) = w2 a. Proof. destruct a. cbn. rewrite !phi_red. reflexivity. Qed.
Lemma nn2_ok a : p2 (nn2 a) = p2 a. Proof. destruct a. cbn. rewrite !phi_nrm. reflexivity. Qed.
Lemma r6_ok a : p6 (r6 a) = w6 a. Proof. destruct a as [[x y] z]. cbn [h6 r6]. rewrite !r2_ok. reflexivity. Qed.
Lemma r12_ok a : p12 (r12 a) = w12 a. Proof. destruct a as [x y]. cbn [h12 r12]. rewrite !r6_ok. reflexivity. Qed.
Hint Rewrite (h2_add G phi phi_add) (h2_sub G phi phi_add) (h2_neg G phi phi_add) (h2_dbl G phi phi_add) (h2_conj G phi phi_add) (h2_nonres G phi phi_add)
  (h2_add G psi psi_add) (h2_sub G psi psi_add) (h2_neg G psi psi_add) (h2_dbl G psi psi_add) (h2_conj G psi psi_add) (h2_nonres G psi psi_add)
  (h6_add G phi phi_add) (h6_sub G phi phi_add) (h6_neg G phi phi_add) (h6_dbl G phi phi_add) (h6_nonres G phi phi_add)
  (h6_add G psi psi_add) (h6_sub G psi psi_add) (h6_neg G psi psi_add) (h6_dbl G psi psi_add) (h6_nonres G psi psi_add)
  pm2_ok ps2_ok r2_ok r6_ok r12_ok nn2_ok : num.
Lemma pm6_ok a b : w6 (pm6 a b) = q6_mul G (p6 a) (p6 b).
Proof. destruct a as [[x y] z], b as [[u v] w]. unfold pm6. cbv zeta. cbn [h6]. autorewrite with num. reflexivity. Qed.
Lemma pm01_ok a b0 b1 : w6 (pm01 a b0 b1) = q6_mul_by_01 G (p6 a) (p2 b0) (p2 b1).
Proof. destruct a as [[x y] z]. unfold pm01. cbv zeta. cbn [h6]. autorewrite with num. reflexivity. Qed.
Lemma m2_ok a b : p2 (m2 a b) = q2_mul G (p2 a) (p2 b). Proof. unfold m2. autorewrite with num. reflexivity. Qed.
Lemma sq2_ok a : p2 (sq2 a) = q2_sq G (p2 a). Proof. unfold sq2. autorewrite with num. reflexivity. Qed.
Hint Rewrite pm6_ok pm01_ok m2_ok sq2_ok : num.
Lemma m12_ok a b : p12 (m12 a b) = q12_mul G (p12 a) (p12 b).
Proof. destruct a as [x y], b as [u v]. unfold m12. cbv zeta. rewrite r12_ok. cbn [h12]. autorewrite with num. reflexivity. Qed.
Lemma sq12_ok a : p12 (sq12 a) = q12_sq G (p12 a).
Proof. destruct a as [x y]. unfold sq12. cbv zeta. rewrite r12_ok. cbn [h12]. autorewrite with num. reflexivity. Qed.
Lemma m034_ok a b0 b3 b4 : p12 (m034 a b0 b3 b4) = q12_mul_by_034 G (p12 a) (p2 b0) (p2 b3) (p2 b4).
Proof. destruct a as [[[p q] r] y]. unfold m034. cbv zeta. rewrite r12_ok. cbn [h12]. autorewrite with num. cbn [h6]. autorewrite with num. reflexivity. Qed.
Definition pc (c : zcoeff) : coeff G := let '(u, v, w) := c in (p2 u, p2 v, p2 w).
Lemma unt_ok f c : p12 (unt f c) = untwist G (p12 f) (pc c) k1 (kadd k1 k1).
Proof.
  destruct c as [[u v] w]. unfold unt. rewrite m034_ok. cbn [pc untwist]. f_equal.
  - rewrite (h2_dbl G phi phi_add). apply q2_eq; unfold q2_dbl, q2_scale, kdbl; cbn [c0 c1]; ring.
  - apply q2_eq; unfold q2_scale; cbn [c0 c1]; ring.
Qed.
Lemma f4_ok a b : let (x, y) := f4 a b in fp4_square G (p2 a) (p2 b) = (p2 x, p2 y).
Proof. unfold f4, fp4_square. cbv zeta. autorewrite with num. reflexivity. Qed.
Lemma csq_ok f : p12 (csq f) = cyclotomic_square G (p12 f).
Proof.
  destruct f as [[[z0 z4] z3] [[z2 z1] z5]]. unfold csq, cyclotomic_square. cbn [h12 h6 e0 e1 d0 d1 d2].
  pose proof (f4_ok z0 z1) as A. destruct (f4 z0 z1) as [t0 t1]. rewrite A.
  pose proof (f4_ok z2 z3) as B. destruct (f4 z2 z3) as [t2 t3]. rewrite B.
  pose proof (f4_ok z4 z5) as C. destruct (f4 z4 z5) as [t4 t5]. rewrite C.
  cbn [h12 h6]. autorewrite with num. reflexivity.
Qed.
Definition pj (t : zjac) : jac G := let '(x, y, z) := t in Jac G (p2 x) (p2 y) (p2 z).
Lemma zdouble_ok t : let (t', c) := zdouble t in double_eval G (pj t) = (pj t', pc c).
Proof. destruct t as [[x y] z]. unfold zdouble, double_eval. cbv zeta. cbn [pj jx jy jz pc]. autorewrite with num. reflexivity. Qed.
Lemma zadd_ok t rx ry : let (t', c) := zadd_eval t rx ry in add_eval G (pj t) (p2 rx) (p2 ry) = (pj t', pc c).
Proof. destruct t as [[x y] z]. unfold zadd_eval, add_eval. cbv zeta. cbn [pj jx jy jz pc]. autorewrite with num. reflexivity. Qed.
Lemma zprep_loop_ok gx gy : forall ds t, let (t', cs) := zprep_loop ds gx gy t in prepare_loop G ds (p2 gx) (p2 gy) (pj t) = (pj t', map pc cs).
Proof.
  induction ds as [|d ds IH]; intros t; [reflexivity|]. cbn [zprep_loop prepare_loop].
  pose proof (zdouble_ok t) as D. destruct (zdouble t) as [t1 c]. rewrite D.
  destruct (d =? 1); [|destruct (d =? -1)].
  - pose proof (zadd_ok t1 gx gy) as A. destruct (zadd_eval t1 gx gy) as [t2 c']. rewrite A. specialize (IH t2). destruct (zprep_loop ds gx gy t2) as [t3 cs]. rewrite IH. reflexivity.
  - pose proof (zadd_ok t1 gx (n2 gy)) as A. rewrite (h2_neg G phi phi_add) in A. destruct (zadd_eval t1 gx (n2 gy)) as [t2 c']. rewrite A. specialize (IH t2). destruct (zprep_loop ds gx gy t2) as [t3 cs]. rewrite IH. reflexivity.
  - specialize (IH t1). destruct (zprep_loop ds gx gy t1) as [t3 cs]. rewrite IH. reflexivity.
Qed.
Lemma p2_one : p2 (one, 0) = q2_1 G. Proof. cbn. rewrite phi_one, (h_0 G phi phi_add). reflexivity. Qed.
Lemma p2_conj a : p2 (cj2 a) = Q2 (c0 (p2 a)) (kopp (c1 (p2 a))). Proof. rewrite (h2_conj G phi phi_add). reflexivity. Qed.
Lemma zprep_ok c61 c62 xih ds gx gy :
  prepare G (p2 c61) (p2 c62) (p2 xih) ds (Aff2 G (p2 gx) (p2 gy) false) = Prep G (map pc (zprep c61 c62 xih one ds gx gy)) false.
Proof.
  unfold prepare, zprep. cbn [a2inf a2x a2y].
  pose proof (zprep_loop_ok gx gy ds (gx, gy, (one, 0))) as L. destruct (zprep_loop ds gx gy (gx, gy, (one, 0))) as [t cs].
  unfold pj at 1 in L. rewrite p2_one in L. rewrite L. rewrite <- !p2_conj, <- !m2_ok.
  pose proof (zadd_ok t (m2 (cj2 gx) c61) (m2 (cj2 gy) xih)) as A. destruct (zadd_eval t _ _) as [t1 k1']. rewrite A.
  pose proof (zadd_ok t1 (m2 gx c62) gy) as B. destruct (zadd_eval t1 _ _) as [t2 k2']. rewrite B.
  rewrite map_app. reflexivity.
Qed.
Definition cur (cs : list zcoeff) : list (cursor G) := [((k1, kadd k1 k1), map pc cs)].
Definition ps (s : option (Z12 * list zcoeff)) : option (q12 G * list (cursor G)) :=
  match s with None => None | Some (f, cs) => Some (p12 f, cur cs) end.
Lemma zstep_ok f cs : step_pairs G (p12 f) (cur cs) = ps (zstep f cs).
Proof. destruct cs as [|c cs]; [reflexivity|]. cbn [cur map step_pairs zstep ps fst snd]. rewrite unt_ok. reflexivity. Qed.
Lemma zmiller_loop_ok : forall ds first f cs, miller_loop G first ds (p12 f) (cur cs) = ps (zmiller_loop first ds f cs).
Proof.
  induction ds as [|d ds IH]; intros first f cs; [reflexivity|]. cbn [miller_loop zmiller_loop].
  assert (E : (if first then p12 f else q12_sq G (p12 f)) = p12 (if first then f else sq12 f)) by (destruct first; [reflexivity|rewrite sq12_ok; reflexivity]).
  rewrite E, zstep_ok. destruct (zstep (if first then f else sq12 f) cs) as [[f1 cs1]|]; [|reflexivity]. cbn [ps bind].
  assert (E2 : (if (d =? 1) || (d =? -1) then step_pairs G (p12 f1) (cur cs1) else Some (p12 f1, cur cs1)) =
    ps (if (d =? 1) || (d =? -1) then zstep f1 cs1 else Some (f1, cs1))) by (destruct ((d =? 1) || (d =? -1)); [apply zstep_ok|reflexivity]).
  rewrite E2. destruct (if (d =? 1) || (d =? -1) then zstep f1 cs1 else Some (f1, cs1)) as [[f2 cs2]|]; [|reflexivity]. cbn [ps bind]. apply IH.
Qed.
Lemma p12_one : p12 (zone one) = q12_1 G. Proof. cbn. rewrite phi_one, (h_0 G phi phi_add). reflexivity. Qed.
Lemma zmiller_ok ds cs : multi_miller_loop G ds [(Aff1 G k1 (kadd k1 k1) false, Prep G (map pc cs) false)] =
  match zmiller one ds cs with None => None | Some f => Some (p12 f) end.
Proof.
  unfold multi_miller_loop, zmiller. cbn [cursors a1inf pinf negb andb a1x a1y coeffs]. change [((k1, kadd k1 k1), map pc cs)] with (cur cs).
  rewrite <- p12_one, zmiller_loop_ok. destruct (zmiller_loop true ds (zone one) cs) as [[f1 cs1]|]; [|reflexivity]. cbn [ps bind].
  rewrite zstep_ok. destruct (zstep f1 cs1) as [[f2 cs2]|]; [|reflexivity]. cbn [ps bind].
  rewrite zstep_ok. destruct (zstep f2 cs2) as [[f3 cs3]|]; [|reflexivity]. cbn [ps bind cur].
  destruct cs3 as [|c cs3]; reflexivity.
Qed.
(** The Frobenius powers. *)
Section Frob.
Variables (tab0 : list G) (tab1 tab2 tab12 : list (q2 G)) (k : nat) (cj : Z2 -> Z2) (t1 t2 g : Z2).
Hypothesis cj_ok : forall a, p2 (cj a) = q2_frobs G tab0 (p2 a) k.
Hypothesis t1_ok : nth (k mod 6) tab1 (q2_0 G) = p2 t1.
Hypothesis t2_ok : nth (k mod 6) tab2 (q2_0 G) = p2 t2.
Hypothesis g_ok : nth (k mod 12) tab12 (q2_0 G) = p2 g.
Lemma zfrob_ok a : p12 (zfrob cj t1 t2 g a) = q12_frobs G tab0 tab1 tab2 tab12 (p12 a) k.
Proof.
  destruct a as [[[x y] z] [[u v] w]]. unfold zfrob, q12_frobs, q6_frobs. cbn [h12 h6 e0 e1 d0 d1 d2].
  rewrite t1_ok, t2_ok, g_ok. rewrite !m2_ok, !cj_ok. reflexivity.
Qed.
End Frob.
End Num.
