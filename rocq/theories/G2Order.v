(** The generator of G2 on the twist: its order, and the relation between its multiples and its images
    under the Frobenius map that the pairing loop relies on. *)
From Coq Require Import ZArith List Bool Lia Field Ring Znumtheory.
From Verif Require Import LimbModel LimbProofs FieldModel FieldSpec FieldProofs DigitProofs PowProofs FieldMore Primes
  Algebra ExtModel ExtParams ExtProofs ExtFrob CurveSpec CurveGroup GroupLib AbTac CurveAb CurveParams CircuitFields CurveOrder
  PairingSpec PairingModel PairingProofs FinalExp PairingRefine PairingFinal LineVal TwistMap BilinAlg PairAbs PairTarget PairBn G2Cert.
From Verif Require Dig64.
Import ListNotations.
Local Open Scope Z_scope.

(** ** Integer polynomials in an endomorphism with pi^4 - pi^2 + 1 = 0. *)
Section Phi.
Variable A : AbGrp.
Variable pi : A -> A.
Hypothesis pi_add : forall a b, pi (aadd a b) = aadd (pi a) (pi b).
Hypothesis phi : forall a, aadd (pi (pi (pi (pi a)))) a = pi (pi a).
Lemma ppi_0 : pi a0 = a0.
Proof. apply (acancel A (pi a0)). rewrite <- pi_add, aid, aid_r. reflexivity. Qed.
Lemma ppi_neg a : pi (aneg a) = aneg (pi a).
Proof. apply aneg_unique. rewrite <- pi_add, ainv. apply ppi_0. Qed.
Lemma ppi_zmul k a : pi (zmul k a) = zmul k (pi a).
Proof.
  assert (N : forall n, pi (nmul n a) = nmul n (pi a)).
  { induction n as [|n IH]; [apply ppi_0|]. cbn [nmul]. rewrite pi_add, IH. reflexivity. }
  unfold zmul. destruct (k <? 0); [rewrite ppi_neg|]; rewrite N; reflexivity.
Qed.
Definition z4 : Type := (Z * Z * Z * Z)%type.
Definition ev (m : z4) (g : A) : A :=
  let '(a, b, c, d) := m in aadd (aadd (zmul a g) (zmul b (pi g))) (aadd (zmul c (pi (pi g))) (zmul d (pi (pi (pi g))))).
Definition z4add (m n : z4) : z4 := let '(a, b, c, d) := m in let '(a', b', c', d') := n in (a + a', b + b', c + c', d + d').
Definition z4scale (k : Z) (m : z4) : z4 := let '(a, b, c, d) := m in (k * a, k * b, k * c, k * d).
Definition z4shift (m : z4) : z4 := let '(a, b, c, d) := m in (- d, a, b + d, c).
Definition z4mul (m n : z4) : z4 :=
  let '(a, b, c, d) := m in
  z4add (z4add (z4scale a n) (z4scale b (z4shift n))) (z4add (z4scale c (z4shift (z4shift n))) (z4scale d (z4shift (z4shift (z4shift n))))).
Lemma ev_add m n g : ev (z4add m n) g = aadd (ev m g) (ev n g).
Proof. destruct m as [[[a b] c] d], n as [[[a' b'] c'] d']. cbn [z4add ev]. rewrite !zmul_add. ab. Qed.
Lemma ev_scale k m g : ev (z4scale k m) g = zmul k (ev m g).
Proof. destruct m as [[[a b] c] d]. cbn [z4scale ev]. rewrite !zmul_dist, !zmul_mul. reflexivity. Qed.
Lemma ev_shift m g : ev (z4shift m) g = pi (ev m g).
Proof.
  assert (P4 : pi (pi (pi (pi g))) = aadd (pi (pi g)) (aneg g)) by (generalize (phi g); generalize (pi (pi (pi (pi g)))); intros u <-; ab).
  destruct m as [[[a b] c] d]. cbn [z4shift ev]. rewrite !pi_add, !ppi_zmul, P4, zmul_add, zmul_opp, zmul_dist, zmul_aneg. ab.
Qed.
Lemma ev_mul m n g : ev (z4mul m n) g = ev m (ev n g).
Proof.
  destruct m as [[[a b] c] d]. unfold z4mul. rewrite !ev_add, !ev_scale, !ev_shift. reflexivity.
Qed.
Lemma ev_0 m : ev m a0 = a0.
Proof. destruct m as [[[a b] c] d]. cbn [ev]. rewrite !ppi_0, !zmul_a0. ab. Qed.
Lemma ev_pi m g : ev m (pi g) = pi (ev m g).
Proof. destruct m as [[[a b] c] d]. cbn [ev]. rewrite !pi_add, !ppi_zmul. reflexivity. Qed.
Lemma ev_zmul m k g : ev m (zmul k g) = zmul k (ev m g).
Proof.
  destruct m as [[[a b] c] d]. cbn [ev]. rewrite !ppi_zmul, !zmul_dist, <- !zmul_mul, !(Z.mul_comm k). reflexivity.
Qed.
Lemma ev_addg m a c : ev m (aadd a c) = aadd (ev m a) (ev m c).
Proof. destruct m as [[[x y] z] t]. cbn [ev]. rewrite !pi_add, !zmul_dist. ab. Qed.
Lemma ev_killed u m r a : z4mul u m = (r, 0, 0, 0) -> ev m a = a0 -> zmul r a = a0.
Proof. intros E H. pose proof (ev_mul u m a) as M. rewrite H, ev_0, E in M. cbn [ev] in M. rewrite <- M, !zmul_0. ab. Qed.
Lemma ev_loop u m s a : z4mul u m = (s, 1, -1, 1) -> ev m a = a0 -> loop_rel A pi s a.
Proof.
  intros E H. pose proof (ev_mul u m a) as M. rewrite H, ev_0, E in M. cbn [ev] in M. unfold loop_rel.
  rewrite (zmul_opp _ 1), !zmul_1 in M. apply aneg_unique. rewrite <- M. ab.
Qed.
End Phi.

(** ** Checking additions with certificates. *)
Section Steps.
Variable E : Fld.
Add Field stfield : (kth E).
Variable b : E.
Hypothesis two : (kadd k1 k1 : E) <> k0. Hypothesis three : (kadd (kadd k1 k1) k1 : E) <> k0. Hypothesis bnz : b <> k0.
Variable p : Z.
Variable mk : Z * Z -> E.
Definition zadd (a c : Z * Z) : Z * Z := (fst a + fst c, snd a + snd c).
Definition zsub (a c : Z * Z) : Z * Z := (fst a - fst c, snd a - snd c).
(** The products are computed on base-64 digits because the kernel does that faster. *)
Definition zmul2 (a c : Z * Z) : Z * Z :=
  (Dig64.fmul (fst a) (fst c) - Dig64.fmul (snd a) (snd c), Dig64.fmul (fst a) (snd c) + Dig64.fmul (snd a) (fst c)).
Definition ztimes (a : Z * Z) : Z * Z := (Dig64.fmul p (fst a), Dig64.fmul p (snd a)).
Definition zeq (a c : Z * Z) : bool := (fst a =? fst c) && (snd a =? snd c).
Hypothesis mk_zadd : forall a c, mk (zadd a c) = kadd (mk a) (mk c).
Hypothesis mk_zsub : forall a c, mk (zsub a c) = ksub (mk a) (mk c).
Hypothesis mk_zmul : forall a c, mk (zmul2 a c) = kmul (mk a) (mk c).
Hypothesis mk_p : forall a, mk (ztimes a) = k0.
Lemma zeq_eq a c : zeq a c = true -> a = c.
Proof. destruct a, c. unfold zeq. cbn [fst snd]. intros H. apply andb_true_iff in H. destruct H as [H1 H2]. apply Z.eqb_eq in H1, H2. congruence. Qed.
Definition zpt : Type := ((Z * Z) * (Z * Z))%type.
Definition step_sum (s t : zpt) (c : cert2) : option zpt :=
  let '(x1, y1) := s in let '(x2, y2) := t in let l := e_l c in
  if zeq (zsub (zsub y1 y2) (zmul2 l (zsub x1 x2))) (ztimes (e_k1 c))
     && zeq (zsub (zmul2 l (zadd y1 y2)) (zadd (zadd (zmul2 x1 x1) (zmul2 x1 x2)) (zmul2 x2 x2))) (ztimes (e_k2 c))
  then let x3 := zsub (zsub (zsub (zmul2 l l) x1) x2) (ztimes (e_k3 c)) in
       Some (x3, zsub (zsub (zmul2 l (zsub x1 x3)) y1) (ztimes (e_k4 c)))
  else None.
Notation G := (cgrp E b two three bnz).
Definition zat (s : zpt) (P : G) : Prop := cval E b P = Pt (mk (fst s)) (mk (snd s)).
Lemma step_sum_ok s t c u P Q : zat s P -> zat t Q -> step_sum s t c = Some u -> zat u (aadd P Q).
Proof.
  unfold zat. destruct s as [x1 y1], t as [x2 y2]. cbn [fst snd]. intros HP HQ H. unfold step_sum in H.
  destruct (zeq _ _ && zeq _ _) eqn:C; [|discriminate H]. injection H as <-. cbn [fst snd].
  apply andb_true_iff in C. destruct C as [C1 C2]. apply zeq_eq in C1, C2.
  apply (f_equal mk) in C1, C2. rewrite mk_p in C1, C2. rewrite !mk_zsub, mk_zmul, mk_zsub in C1. rewrite mk_zsub, mk_zmul, !mk_zadd, !mk_zmul in C2.
  pose proof (cval_on E b P) as OP. pose proof (cval_on E b Q) as OQ. rewrite HP in OP. rewrite HQ in OQ.
  rewrite cval_add, HP, HQ. rewrite (add_lin E b two three bnz _ _ _ _ (mk (e_l c)) OP OQ).
  - unfold thx, thy. rewrite !mk_zsub, !mk_zmul, !mk_zsub, !mk_p, mk_zmul. f_equal; ring.
  - split; apply ksub_eq0; assumption.
Qed.
Definition zneg (s : zpt) : zpt := (fst s, zsub (0, 0) (snd s)).
Lemma zneg_ok s P : mk (0, 0) = k0 -> zat s P -> zat (zneg s) (aneg P).
Proof. unfold zat, zneg. intros Z0 H. rewrite cval_neg, H. cbn [fst snd pt_neg]. rewrite mk_zsub, Z0. f_equal. ring. Qed.
Hypothesis mk_zero : mk (0, 0) = k0.
Fixpoint chain2 (g : zpt) (l : list step2) (s : zpt) : option zpt :=
  match l with
  | [] => Some s
  | Dbl2 c :: l => match step_sum s s c with Some s => chain2 g l s | None => None end
  | DblAdd2 c a :: l =>
      match step_sum s s c with
      | Some s => match step_sum s g a with Some s => chain2 g l s | None => None end
      | None => None
      end
  | DblSub2 c a :: l =>
      match step_sum s s c with
      | Some s => match step_sum s (zneg g) a with Some s => chain2 g l s | None => None end
      | None => None
      end
  end.
Fixpoint chain2_value (l : list step2) (k : Z) : Z :=
  match l with
  | [] => k
  | Dbl2 _ :: l => chain2_value l (2 * k)
  | DblAdd2 _ _ :: l => chain2_value l (2 * k + 1)
  | DblSub2 _ _ :: l => chain2_value l (2 * k - 1)
  end.
Lemma chain2_ok g P : zat g P -> forall l s k u, zat s (zmul k P) -> chain2 g l s = Some u -> zat u (zmul (chain2_value l k) P).
Proof.
  intros HG. induction l as [|[c|c a|c a] l IH]; intros s k u HS H; cbn [chain2 chain2_value] in *.
  - injection H as <-. exact HS.
  - destruct (step_sum s s c) as [s'|] eqn:E1; [|discriminate H]. apply (IH s' (2 * k) u); [|exact H].
    rewrite zmul_double. exact (step_sum_ok _ _ _ _ _ _ HS HS E1).
  - destruct (step_sum s s c) as [s'|] eqn:E1; [|discriminate H]. destruct (step_sum s' g a) as [s''|] eqn:E2; [|discriminate H].
    apply (IH s'' (2 * k + 1) u); [|exact H]. rewrite zmul_add, zmul_1, zmul_double.
    exact (step_sum_ok _ _ _ _ _ _ (step_sum_ok _ _ _ _ _ _ HS HS E1) HG E2).
  - destruct (step_sum s s c) as [s'|] eqn:E1; [|discriminate H]. destruct (step_sum s' (zneg g) a) as [s''|] eqn:E2; [|discriminate H].
    apply (IH s'' (2 * k - 1) u); [|exact H]. rewrite zmul_sub, zmul_1, zmul_double.
    exact (step_sum_ok _ _ _ _ _ _ (step_sum_ok _ _ _ _ _ _ HS HS E1) (zneg_ok _ _ mk_zero HG) E2).
Qed.
(** Three points on a horizontal line. *)
Lemma horizontal (cr x y : E) : kadd (kadd (kmul cr cr) cr) k1 = k0 -> on_curve b (Pt x y) -> on_curve b (Pt (kmul x (kmul cr cr)) y) ->
  pt_add (Pt (kmul x (kmul cr cr)) y) (Pt x y) = Pt (kmul x cr) (kopp y).
Proof.
  intros C O1 O2. rewrite (add_lin E b two three bnz _ _ _ _ k0 O2 O1).
  - unfold thx, thy. f_equal; [|ring]. apply ksub_eq0. transitivity (kopp (kmul x (kadd (kadd (kmul cr cr) cr) k1))); [ring|]. rewrite C. ring.
  - split; [ring|]. transitivity (kmul (kmul x x) (kmul (kadd (kadd (kmul cr cr) cr) k1) (kadd (ksub (kmul cr cr) cr) k1))); [|ring]. rewrite C. ring.
Qed.
End Steps.

(** ** The group of the twist and its Frobenius map. *)
Local Notation F := FqFld.
Definition g2_two := proj1 (proj2 g2_ok). Definition g2_three := proj1 (proj2 (proj2 g2_ok)). Definition g2_bnz := proj2 (proj2 (proj2 g2_ok)).
Definition g2_group : AbGrp := cgrp Fq2Fld g2_param_b g2_two g2_three g2_bnz.
Definition pix (x : Fq2Fld) : Fq2Fld := q2_mul F (q2_conj F x) (nth 1 frob_fq6_c1 (q2_0 F)).
Definition piy (y : Fq2Fld) : Fq2Fld := q2_mul F (q2_conj F y) xi_to_q_minus_1_over_2.
Definition g2_pi : g2_group -> g2_group :=
  pi F Fq2Fld Fq12Fld g1_param_b g2_param_b b12 g2_two g2_three g2_bnz ib io w io_add io_mul io_1 w_neq0 hb2 hb1 qfrob qf_add qf_mul qf_1 qf_ib pix piy hx hy.
Lemma g2_pi_add a c : g2_pi (aadd a c) = aadd (g2_pi a) (g2_pi c).
Proof. exact (pi_add F Fq2Fld Fq12Fld g1_param_b g2_param_b b12 g2_two g2_three g2_bnz ib io w io_add io_mul io_1 w_neq0 hb2 hb1 qfrob qf_add qf_mul qf_1 qf_ib pix piy hx hy a c). Qed.
Notation g2v := (cval Fq2Fld g2_param_b).
Lemma g2_pi_val (a : g2_group) : g2v (g2_pi a) = match g2v a with Inf => Inf | Pt x y => Pt (pix x) (piy y) end.
Proof. reflexivity. Qed.
Definition cr3 : Fq2Fld := nth 2 frob_fq6_c1 (q2_0 F).
Section Inj.
Variables (E K : Fld) (h : E -> K) (v : K).
Add Field ijE : (kth E). Add Field ijK : (kth K).
Hypothesis h_add : forall a c, h (kadd a c) = kadd (h a) (h c). Hypothesis h_mul : forall a c, h (kmul a c) = kmul (h a) (h c). Hypothesis h_1 : h k1 = k1.
Hypothesis V0 : v <> k0.
Lemma inj2 a c : kmul (kmul (h a) v) v = kmul (kmul (h c) v) v -> a = c.
Proof.
  intros H. apply (h_inj E K h h_add h_mul h_1). apply (kmul_cancel_l K (kmul v v)); [apply kmul_neq0; exact V0|].
  transitivity (kmul (kmul (h a) v) v); [ring|]. rewrite H. ring.
Qed.
Lemma inj3 a c : kmul (kmul (kmul (h a) v) v) v = kopp (kmul (kmul (kmul (h c) v) v) v) -> a = kopp c.
Proof.
  intros H. apply (h_inj E K h h_add h_mul h_1). rewrite (h_opp E K h h_add). apply (kmul_cancel_l K (kmul (kmul v v) v)); [repeat apply kmul_neq0; exact V0|].
  transitivity (kmul (kmul (kmul (h a) v) v) v); [ring|]. rewrite H. ring.
Qed.
Lemma cr_rel (z c : E) : kmul z z = ksub z k1 -> c = kmul z z -> kadd (kadd (kmul c c) c) k1 = k0.
Proof. intros H ->. rewrite H. transitivity (ksub (kmul z z) (ksub z k1)); [ring|]. rewrite H. ring. Qed.
End Inj.
Lemma pix_pix x : pix (pix x) = kmul x cr3.
Proof.
  apply (inj2 Fq2Fld Fq12Fld io w io_add io_mul io_1 w_neq0). unfold io, w.
  pose proof (hx2 x) as H. rewrite !hx in H. exact H.
Qed.
Lemma piy_piy y : piy (piy y) = kopp y.
Proof.
  apply (inj3 Fq2Fld Fq12Fld io w io_add io_mul io_1 w_neq0). unfold io, w.
  pose proof (hy2 y) as H. rewrite !hy in H. exact H.
Qed.
Lemma cr3_rel : kadd (kadd (kmul cr3 cr3) cr3) k1 = k0.
Proof. apply (cr_rel Fq2Fld zeta cr3); [exact zeta_sq|exact t1_2]. Qed.
Lemma g2_pi2_val (a : g2_group) : g2v (g2_pi (g2_pi a)) = match g2v a with Inf => Inf | Pt x y => Pt (kmul x cr3) (kopp y) end.
Proof. rewrite !g2_pi_val. destruct (g2v a) as [|x y]; [reflexivity|]. rewrite pix_pix, piy_piy. reflexivity. Qed.
Lemma g_oppopp (E : Fld) (y : E) : kopp (kopp y) = y. Proof. exact (Ropp_opp (Eqsth _) (Eq_ext _ _ _) (F_R (kth E)) y). Qed.
Lemma g_massoc (E : Fld) (x c : E) : kmul (kmul x c) c = kmul x (kmul c c). Proof. symmetry. apply (Rmul_assoc (F_R (kth E))). Qed.
Lemma g2_phi (a : g2_group) : aadd (g2_pi (g2_pi (g2_pi (g2_pi a)))) a = g2_pi (g2_pi a).
Proof.
  apply cpt_eq. change (pt_add (g2v (g2_pi (g2_pi (g2_pi (g2_pi a))))) (g2v a) = g2v (g2_pi (g2_pi a))). pose proof (cval_on _ _ (g2_pi (g2_pi (g2_pi (g2_pi a))))) as O4. pose proof (cval_on _ _ a) as O.
  rewrite (g2_pi2_val (g2_pi (g2_pi a))), (g2_pi2_val a) in *. destruct (g2v a) as [|x y]; [reflexivity|].
  rewrite g_oppopp, g_massoc in *. apply (horizontal Fq2Fld g2_param_b g2_two g2_three g2_bnz cr3 x y cr3_rel O O4).
Qed.

(** ** The certified computation. *)
Definition g2_gz : zpt := ((0x1800deef121f1e76426a00665e5c4479674322d4f75edadd46debd5cd992f6ed, 0x198e9393920d483a7260bfb731fb5d25f1aa493335a9e71297e485b7aef312c2), (0x12c85ea5db8c6deb4aab71808dcb408fe3d1e7690c43d37b4ce6cc0166fa7daa, 0x90689d0585ff075ec9e99ad690c3395bc4b313370b38ef355acdadcd122975b)).
Definition c61z : Z * Z := (0x2fb347984f7911f74c0bec3cf559b143b78cc310c2c3330c99e39557176f553d, 0x16c9e55061ebae204ba4cc8bd75a079432ae2a1d0b7c9dce1665d51c640fcba2).
Definition xhz : Z * Z := (0x63cf305489af5dcdc5ec698b6e2f9b9dbaae0eda9c95998dc54014671a0135a, 0x7c03cbcac41049a0704b5a7ec796f2b21807dc98fa25bd282d37f632623b0e3).
Definition cr3z : Z * Z := (0x30644e72e131a0295e6dd9e7e0acccb0c28f069fbb966e3de4bd44e5607cfd48, 0x0).
Definition zconj (a : Z * Z) : Z * Z := (fst a, - snd a).
Definition zred (a : Z * Z) : Z * Z := (fst a mod Q_MOD, snd a mod Q_MOD).
Definition zpi (s : zpt) : zpt := (zred (zmul2 (zconj (fst s)) c61z), zred (zmul2 (zconj (snd s)) xhz)).
Definition g2_verify (g : zpt) (l : list step2) (ca cb cc cd : cert2) : bool :=
  match chain2 Q_MOD g l g with
  | None => false
  | Some t =>
      match step_sum Q_MOD t g ca with
      | None => false
      | Some a1 =>
          match step_sum Q_MOD a1 (zpi t) cb with
          | None => false
          | Some a2 =>
              match step_sum Q_MOD a2 (zpi (zpi t)) cc with
              | None => false
              | Some a3 =>
                  match step_sum Q_MOD t t cd with
                  | None => false
                  | Some a4 => let u := zpi (zpi (zpi a4)) in zeq (fst a3) (fst u) && zeq (snd a3) (snd u)
                  end
              end
          end
      end
  end.
Definition g2_check : bool := g2_verify g2_gz g2_chain g2_cert_a g2_cert_b g2_cert_c g2_cert_d.
Lemma g2_check_ok : g2_check = true. Proof. vm_cast_no_check (eq_refl true). Qed.
Lemma fq_mk_add a c : fq_mk (a + c) = kadd (fq_mk a) (fq_mk c).
Proof. apply fq_val_inj. rewrite fq_val_add, !ExtFrob.fq_val_mk. apply Zplus_mod. Qed.
Lemma fq_mk_mul a c : fq_mk (a * c) = kmul (fq_mk a) (fq_mk c).
Proof. apply fq_val_inj. rewrite fq_val_mul, !ExtFrob.fq_val_mk. apply Zmult_mod. Qed.
Lemma fq_mk_0 : fq_mk 0 = k0. Proof. apply fq_val_inj. rewrite ExtFrob.fq_val_mk, fq_val_0. apply Z.mod_0_l. pose proof Q_pos. lia. Qed.
Lemma fq_mk_q a : fq_mk (Q_MOD * a) = k0.
Proof. apply fq_val_inj. rewrite ExtFrob.fq_val_mk, fq_val_0, Z.mul_comm. apply Z.mod_mul. pose proof Q_pos. lia. Qed.
Lemma fq_mk_mod a : fq_mk (a mod Q_MOD) = fq_mk a.
Proof. apply fq_val_inj. rewrite !ExtFrob.fq_val_mk. apply Z.mod_mod. pose proof Q_pos. lia. Qed.
Section MkSub.
Variable G : Fld.
Add Field msfield : (kth G).
Variable mk : Z -> G.
Hypothesis mk_add : forall a c, mk (a + c) = kadd (mk a) (mk c).
Lemma g_mk_sub a c : mk (a - c) = ksub (mk a) (mk c).
Proof.
  assert (E : mk a = kadd (mk (a - c)) (mk c)) by (rewrite <- mk_add; f_equal; lia). rewrite E. ring.
Qed.
Hypothesis mk_mul : forall a c, mk (a * c) = kmul (mk a) (mk c).
Definition gmk2 (a : Z * Z) : q2 G := Q2 (mk (fst a)) (mk (snd a)).
Lemma gmk2_add a c : gmk2 (zadd a c) = q2_add G (gmk2 a) (gmk2 c).
Proof. unfold gmk2, zadd. cbn [fst snd]. rewrite !mk_add. reflexivity. Qed.
Lemma gmk2_sub a c : gmk2 (zsub a c) = q2_sub G (gmk2 a) (gmk2 c).
Proof. unfold gmk2, zsub. cbn [fst snd]. rewrite !g_mk_sub. reflexivity. Qed.
Lemma gmk2_mul a c : gmk2 (zmul2 a c) = q2_mul G (gmk2 a) (gmk2 c).
Proof. unfold gmk2, zmul2. cbn [fst snd]. rewrite !Dig64.fmul_ok, g_mk_sub, mk_add, !mk_mul. apply q2_eq; unfold q2_mul; cbn [c0 c1]; ring. Qed.
Hypothesis mk_zero : mk 0 = k0.
Lemma gmk2_conj a : gmk2 (zconj a) = q2_conj G (gmk2 a).
Proof. unfold gmk2, zconj, q2_conj. cbn [fst snd c0 c1]. f_equal. replace (- snd a) with (0 - snd a) by lia. rewrite g_mk_sub, mk_zero. ring. Qed.
End MkSub.
Definition mk2 : Z * Z -> Fq2Fld := gmk2 F fq_mk.
Lemma mk2_add a c : mk2 (zadd a c) = kadd (mk2 a) (mk2 c). Proof. exact (gmk2_add F fq_mk fq_mk_add a c). Qed.
Lemma mk2_sub a c : mk2 (zsub a c) = ksub (mk2 a) (mk2 c). Proof. exact (gmk2_sub F fq_mk fq_mk_add a c). Qed.
Lemma mk2_mul a c : mk2 (zmul2 a c) = kmul (mk2 a) (mk2 c). Proof. exact (gmk2_mul F fq_mk fq_mk_add fq_mk_mul a c). Qed.
Lemma mk2_conj a : mk2 (zconj a) = q2_conj F (mk2 a). Proof. exact (gmk2_conj F fq_mk fq_mk_add fq_mk_0 a). Qed.
Lemma mk2_q a : mk2 (ztimes Q_MOD a) = k0. Proof. unfold mk2, gmk2, ztimes. cbn [fst snd]. rewrite !Dig64.fmul_ok, !fq_mk_q. reflexivity. Qed.
Lemma mk2_0 : mk2 (0, 0) = k0. Proof. unfold mk2, gmk2. cbn [fst snd]. rewrite fq_mk_0. reflexivity. Qed.
Lemma mk2_red a : mk2 (zred a) = mk2 a. Proof. unfold mk2, gmk2, zred. cbn [fst snd]. rewrite !fq_mk_mod. reflexivity. Qed.
Lemma c61_eq : nth 1 frob_fq6_c1 (q2_0 F) = mk2 c61z. Proof. apply raw_eqb_eq. vm_compute. reflexivity. Qed.
Lemma xh_eq : xi_to_q_minus_1_over_2 = mk2 xhz. Proof. apply raw_eqb_eq. vm_compute. reflexivity. Qed.
Notation zat2 := (zat Fq2Fld g2_param_b g2_two g2_three g2_bnz mk2).
Lemma zpi_ok s (P : g2_group) : zat2 s P -> zat2 (zpi s) (g2_pi P).
Proof.
  unfold zat. intros H. rewrite g2_pi_val, H. unfold zpi. cbn [fst snd]. rewrite !mk2_red, !mk2_mul, !mk2_conj. unfold pix, piy.
  rewrite c61_eq, xh_eq. reflexivity.
Qed.
Definition g2_gen : g2_group := cmk Fq2Fld g2_param_b (Pt (K := Fq2Fld) g2_generator_x g2_generator_y) g2_generator_on.
Lemma g2x_eq : g2_generator_x = mk2 (fst g2_gz). Proof. apply raw_eqb_eq. vm_compute. reflexivity. Qed.
Lemma g2y_eq : g2_generator_y = mk2 (snd g2_gz). Proof. apply raw_eqb_eq. vm_compute. reflexivity. Qed.
Lemma g2_gen_at : zat2 g2_gz g2_gen.
Proof. unfold zat, g2_gen. cbn [cval cmk proj1_sig]. rewrite <- g2x_eq, <- g2y_eq. reflexivity. Qed.
Notation ssum_ok := (step_sum_ok Fq2Fld g2_param_b g2_two g2_three g2_bnz Q_MOD mk2 mk2_add mk2_sub mk2_mul mk2_q).
Lemma verify_ok g l ca cb cc cd (P : g2_group) k : zat2 g P -> g2_verify g l ca cb cc cd = true -> k = chain2_value l 1 ->
  ev g2_group g2_pi (k + 1, k, k, - (2 * k)) P = a0.
Proof.
  intros HG V EK. unfold g2_verify in V.
  destruct (chain2 Q_MOD g l g) as [t|] eqn:E0; [|discriminate V].
  destruct (step_sum Q_MOD t g ca) as [a1|] eqn:E1; [|discriminate V].
  destruct (step_sum Q_MOD a1 (zpi t) cb) as [a2|] eqn:E2; [|discriminate V].
  destruct (step_sum Q_MOD a2 (zpi (zpi t)) cc) as [a3|] eqn:E3; [|discriminate V].
  destruct (step_sum Q_MOD t t cd) as [a4|] eqn:E4; [|discriminate V].
  assert (HG1 : zat2 g (zmul 1 P)) by (rewrite zmul_1; exact HG).
  pose proof (chain2_ok Fq2Fld g2_param_b g2_two g2_three g2_bnz Q_MOD mk2 mk2_add mk2_sub mk2_mul mk2_q mk2_0 g P HG l g 1 t HG1 E0) as HT.
  rewrite <- EK in HT. set (T := zmul k P : g2_group) in *.
  pose proof (ssum_ok _ _ _ _ _ _ HT HG E1) as H1. pose proof (ssum_ok _ _ _ _ _ _ H1 (zpi_ok _ _ HT) E2) as H2.
  pose proof (ssum_ok _ _ _ _ _ _ H2 (zpi_ok _ _ (zpi_ok _ _ HT)) E3) as H3. pose proof (ssum_ok _ _ _ _ _ _ HT HT E4) as H4.
  apply zpi_ok, zpi_ok, zpi_ok in H4. cbv zeta in V. apply andb_true_iff in V. destruct V as [V1 V2]. apply zeq_eq in V1, V2.
  assert (EQ : aadd (aadd (aadd T P) (g2_pi T)) (g2_pi (g2_pi T)) = g2_pi (g2_pi (g2_pi (aadd T T)))).
  { apply cpt_eq. unfold zat in H3, H4. rewrite V1, V2 in H3. exact (eq_trans H3 (eq_sym H4)). }
  clear - EQ. unfold T in EQ. rewrite !(ppi_zmul g2_group g2_pi g2_pi_add), !g2_pi_add, !(ppi_zmul g2_group g2_pi g2_pi_add) in EQ.
  cbn [ev]. rewrite zmul_opp, zmul_add, zmul_1, zmul_double.
  rewrite <- EQ. ab.
Qed.
(** ** The generator of G2. *)
Definition bnx : Z := 4965661367192848881.
Definition r1z : z4 := (bnx + 1, bnx, bnx, - (2 * bnx)).
Theorem g2_frobenius_relation : ev g2_group g2_pi r1z g2_gen = a0.
Proof. exact (verify_ok _ _ _ _ _ _ g2_gen bnx g2_gen_at g2_check_ok eq_refl). Qed.
Definition r1_cofactor : z4 := (0x3bec47df15e307c88df6ed4bc8923d89f5589cc20596f60e, 0x1df623ef8af183e3d7adf45cf590c4c8113c366715dedaf5, (-0x1df623ef8af183e446fb76a5e4491ec4934df252932dec1d), 0x1df623ef8af183e446fb76a5e4491ec4d8378506dd96f60e).
Lemma r1_norm : z4mul r1_cofactor r1z = (R_MOD, 0, 0, 0). Proof. rewrite R_MOD_val. vm_compute. reflexivity. Qed.
Lemma r1_loop : z4mul (2, 1, -1, 1) r1z = (ate_s, 1, -1, 1). Proof. vm_compute. reflexivity. Qed.
Definition r1_ok (a : g2_group) : Prop := ev g2_group g2_pi r1z a = a0.
Lemma r1_killed a : r1_ok a -> zmul R_MOD a = a0.
Proof. exact (ev_killed g2_group g2_pi g2_pi_add g2_phi _ _ _ a r1_norm). Qed.
Lemma r1_loop_rel a : r1_ok a -> loop_rel g2_group g2_pi ate_s a.
Proof. exact (ev_loop g2_group g2_pi g2_pi_add g2_phi _ _ _ a r1_loop). Qed.
Lemma r1_zmul k a : r1_ok a -> r1_ok (zmul k a).
Proof. unfold r1_ok. intros H. rewrite (ev_zmul g2_group g2_pi g2_pi_add), H. apply zmul_a0. Qed.
Lemma r1_add a c : r1_ok a -> r1_ok c -> r1_ok (aadd a c).
Proof. unfold r1_ok. intros H1 H2. rewrite (ev_addg g2_group g2_pi g2_pi_add), H1, H2. apply aid. Qed.
Lemma order_divides (a : g2_group) k : zmul R_MOD a = a0 -> a <> a0 -> zmul k a = a0 -> (R_MOD | k).
Proof.
  intros HR N E. destruct (Zdivide_dec R_MOD k) as [D|D]; [exact D|]. exfalso.
  assert (RP : rel_prime k R_MOD) by (apply rel_prime_sym, prime_rel_prime; [exact R_MOD_prime|exact D]).
  destruct (rel_prime_bezout _ _ RP) as [u v H]. apply N. rewrite <- (zmul_1 _ a), <- H, zmul_add, !zmul_mul, E, HR, !zmul_a0. apply aid.
Qed.
Lemma g2_gen_neq0 : g2_gen <> a0.
Proof. intros E. apply (f_equal g2v) in E. discriminate E. Qed.
Theorem g2_gen_order k : zmul k g2_gen = a0 <-> (R_MOD | k).
Proof.
  pose proof (r1_killed _ g2_frobenius_relation) as HR. split.
  - apply order_divides; [exact HR|exact g2_gen_neq0].
  - intros [j ->]. rewrite zmul_mul, HR. apply zmul_a0.
Qed.
