(** The subgroup checks: the literals act as field elements; neither map stays on the curve. *)
From Coq Require Import ZArith List Bool Field Lia.
From Verif Require Import LimbModel LimbProofs MontProofs FieldModel FieldSpec FieldProofs Algebra ExtModel ExtParams ExtProofs ExtFrob
  PairingModel CurveSpec WeierModel WeierProofs CurveParams TorsionModel.
Import ListNotations.

(** ** Literals above the modulus. *)
Section Literal.
Local Open Scope Z_scope.
Variables (P : fparams) (m : Z).
Hypothesis OK : params_ok P m.
Lemma rep_mul_literal a x c : rep m a x -> wf c ->
  rep m (fmul P a c) ((x * val (montgomery_reduce P c)) mod m) /\ fmul P c a = fmul P a c.
Proof.
  intros Ra Wc. pose proof (rep_lt P m OK _ _ Ra) as La. destruct Ra as (Wa & Hx & Ea).
  pose proof (m_gt1 P m OK). pose proof (val_range c Wc) as Rc. pose proof (val_range a Wa) as Ra'.
  destruct (reduce_spec P m OK c Wc) as (Wr & Rr & Er).
  destruct (mul_mod P m OK a c Wa Wc ltac:(nia)) as (W & L & E).
  destruct (mul_mod P m OK c a Wc Wa ltac:(nia)) as (W' & L' & E').
  assert (R : rep m (fmul P a c) ((x * val (montgomery_reduce P c)) mod m)).
  { apply (rep_intro P m OK); [exact W|exact L|]. apply (cancel_B4 P m OK). rewrite E, Ea, Z.mul_mod_idemp_l by lia.
    rewrite <- Z.mul_mod_idemp_r, <- Er, Z.mul_mod_idemp_r by lia. f_equal. ring. }
  split; [exact R|]. apply val_inj; [exact W'|exact W|].
  assert (C : val (fmul P c a) mod m = val (fmul P a c) mod m).
  { apply (cancel_B4 P m OK). rewrite E', E. f_equal. ring. }
  rewrite !Z.mod_small in C by (pose proof (val_range _ W); pose proof (val_range _ W'); lia). exact C.
Qed.
End Literal.
Lemma fq_literal_mul (x : FqFld) c : limbs_ok c ->
  fmul fq (lf_limbs Q_MOD x) c = lf_limbs Q_MOD (kmul x (fq_literal c)) /\ fmul fq c (lf_limbs Q_MOD x) = lf_limbs Q_MOD (kmul x (fq_literal c)).
Proof.
  intros W. apply limbs_ok_wf in W. destruct (rep_mul_literal fq Q_MOD fq_ok _ _ c (lf_rep fq Q_MOD fq_ok x) W) as [R C].
  rewrite C. assert (E : fmul fq (lf_limbs Q_MOD x) c = lf_limbs Q_MOD (kmul x (fq_literal c))); [|split; exact E].
  eapply rep_inj; [exact R|]. pose proof (lf_rep fq Q_MOD fq_ok (kmul x (fq_literal c))) as R'.
  assert (V : lf_val fq Q_MOD (kmul x (fq_literal c)) = ((lf_val fq Q_MOD x * val (montgomery_reduce fq c)) mod Q_MOD)%Z); [|rewrite V in R'; exact R'].
  etransitivity; [apply (lf_val_mul fq Q_MOD fq_ok)|]. unfold fq_literal, fq_mk. rewrite (lf_val_mk fq Q_MOD fq_ok), limb_value_val.
  apply Z.mul_mod_idemp_r. pose proof (m_gt1 fq Q_MOD fq_ok). lia.
Qed.

(** ** Leaving the curve, over any field. *)
Section Off.
Variable K : Fld.
Local Open Scope fld_scope.
Add Field KFt : (kth K).
Lemma beta_off (b beta w x y : K) : anisotropic K -> beta * beta * beta <> 1 -> w <> 0 -> w * w = - b ->
  y * y = x * x * x + b -> y * y = (x * beta) * (x * beta) * (x * beta) + b -> False.
Proof.
  intros AN NB NW EW E1 E2.
  assert (Z0 : x * x * x * (beta * beta * beta - 1) = 0).
  { transitivity (((x * beta) * (x * beta) * (x * beta) + b) - (x * x * x + b)); [ring|]. rewrite <- E1, <- E2. ring. }
  assert (NB' : beta * beta * beta - 1 <> 0).
  { intros E. apply NB. transitivity (beta * beta * beta - 1 + 1); [ring|]. rewrite E. ring. }
  assert (X0 : x * x * x = 0).
  { destruct (kdec K (x * x * x) 0) as [E|N]; [exact E|]. exfalso. exact (kmul_neq0 K _ _ N NB' Z0). }
  rewrite X0 in E1. apply NW. apply (proj2 (AN y w ltac:(rewrite E1, EW; ring))).
Qed.
Lemma psi_elim (b bb cx cy x y : K) : y * y = x * x * x + bb -> (y * cy) * (y * cy) = (x * cx) * (x * cx) * (x * cx) + b ->
  y * y * (cy * cy - cx * cx * cx) = b - cx * cx * cx * bb.
Proof.
  intros E1 E2. assert (X : x * x * x = y * y - bb) by (rewrite E1; ring).
  transitivity ((y * cy) * (y * cy) - cx * cx * cx * (y * y)); [ring|]. rewrite E2.
  transitivity (cx * cx * cx * (x * x * x) + b - cx * cx * cx * (y * y)); [ring|]. rewrite X. ring.
Qed.
Lemma norm_off (y d s : q2 K) (w : K) : anisotropic K -> w <> 0 -> w * w = - (q2_norm K s * q2_norm K d) ->
  q2_mul K (q2_mul K y y) d = s -> False.
Proof.
  intros AN NW EW E. apply NW. refine (proj2 (AN (q2_norm K y * q2_norm K d) w _)).
  rewrite EW, <- E, !(q2_norm_mul K). ring.
Qed.
Lemma conj_curve (x y b : q2 K) : q2_mul K y y = q2_add K (q2_mul K (q2_mul K x x) x) b ->
  q2_mul K (q2_frob K y) (q2_frob K y) = q2_add K (q2_mul K (q2_mul K (q2_frob K x) (q2_frob K x)) (q2_frob K x)) (q2_frob K b).
Proof.
  intros E. assert (A : q2_mul K (q2_frob K y) (q2_frob K y) = q2_conj K (q2_mul K y y)) by (unfold q2_frob, q2_conj, q2_mul; cbn [c0 c1]; f_equal; ring).
  rewrite A, E. unfold q2_frob, q2_conj, q2_add, q2_mul; cbn [c0 c1]; f_equal; ring.
Qed.
Lemma q2_conj_mul (a b : q2 K) : q2_conj K (q2_mul K a b) = q2_mul K (q2_conj K a) (q2_conj K b).
Proof. unfold q2_conj, q2_mul; cbn [c0 c1]; f_equal; ring. Qed.
Lemma conj_0 : q2_conj K (q2_0 K) = q2_0 K.
Proof. unfold q2_conj, q2_0; cbn [c0 c1]; f_equal; ring. Qed.
Lemma conj_inj0 (a : q2 K) : q2_conj K a = q2_0 K -> a = q2_0 K.
Proof. intros E. apply (f_equal (q2_conj K)) in E. rewrite conj_0 in E. rewrite <- E. destruct a as [u v]. unfold q2_conj; cbn [c0 c1]. f_equal. ring. Qed.
End Off.

(** ** G1. *)
Local Open Scope Z_scope.
Definition g1_w : FqFld := fq_mk 0xb3c4d79d41a91759a9e4c7e359b6b89eaec68e62effffffd.
Lemma endomorphism_off (x y : FqFld) : on_curve g1_param_b (Pt x y) -> ~ on_curve g1_param_b (Pt (kmul x BETA) y).
Proof.
  intros E1 E2. refine (beta_off FqFld g1_param_b BETA g1_w x y fq_anisotropic _ _ _ E1 E2).
  - apply keqb_neq. vm_compute. reflexivity.
  - apply keqb_neq. vm_compute. reflexivity.
  - apply keqb_eq. vm_compute. reflexivity.
Qed.

(** ** G2. *)
Definition psi_d : FQ2 := q2_sub FqFld (q2_mul FqFld psi_coeff_y psi_coeff_y) (q2_mul FqFld (q2_mul FqFld psi_coeff_x psi_coeff_x) psi_coeff_x).
Definition psi_s : FQ2 :=
  q2_sub FqFld g2_param_b (q2_mul FqFld (q2_mul FqFld (q2_mul FqFld psi_coeff_x psi_coeff_x) psi_coeff_x) (q2_frob FqFld g2_param_b)).
Definition g2_w : FqFld := fq_mk 0x1d56c810c3239e72b3df9785df325761f9926b7d69589799765d1933db7822e8.
Lemma g2_w_ok : kmul g2_w g2_w = kopp (kmul (q2_norm FqFld psi_s) (q2_norm FqFld psi_d)).
Proof. apply keqb_eq. vm_compute. reflexivity. Qed.
Lemma g2_w_nz : g2_w <> k0. Proof. apply keqb_neq. vm_compute. reflexivity. Qed.
Lemma psi_off (x y : Fq2Fld) : on_curve (K := Fq2Fld) g2_param_b (Pt (K := Fq2Fld) x y) ->
  ~ on_curve (K := Fq2Fld) g2_param_b (Pt (K := Fq2Fld) (q2_mul FqFld (q2_frob FqFld x) psi_coeff_x) (q2_mul FqFld (q2_frob FqFld y) psi_coeff_y)).
Proof.
  intros E1 E2. pose proof (conj_curve FqFld x y g2_param_b E1) as E1'.
  exact (norm_off FqFld (q2_frob FqFld y) psi_d psi_s g2_w fq_anisotropic g2_w_nz g2_w_ok
    (psi_elim Fq2Fld g2_param_b (q2_frob FqFld g2_param_b) psi_coeff_x psi_coeff_y (q2_frob FqFld x) (q2_frob FqFld y) E1' E2)).
Qed.

(** [psi] on the points the coordinates stand for. *)
Lemma frob_quot (L : Fld) (f : L -> L) (c x z : L) : (forall a b, f (kmul a b) = kmul (f a) (f b)) -> z <> k0 -> f z <> k0 ->
  kdiv (kmul (f x) c) (f z) = kmul (f (kdiv x z)) c.
Proof.
  intros M N N'. assert (E : f x = kmul (f (kdiv x z)) (f z)).
  { rewrite <- M. f_equal. rewrite (Fdiv_def (kth L)), <- (Rmul_assoc (F_R (kth L))), (Finv_l (kth L) z N), (Rmul_comm (F_R (kth L))), (Rmul_1_l (F_R (kth L))). reflexivity. }
  rewrite E, (Fdiv_def (kth L)). revert N'. generalize (f (kdiv x z)) (f z). intros u v N'.
  rewrite <- !(Rmul_assoc (F_R (kth L))). rewrite (Rmul_comm (F_R (kth L)) c), (Rmul_assoc (F_R (kth L)) v), (Rmul_comm (F_R (kth L)) v), (Finv_l (kth L) v N'), (Rmul_1_l (F_R (kth L))). reflexivity.
Qed.
Lemma frob_mul2 (a b : q2 FqFld) : q2_frob FqFld (q2_mul FqFld a b) = q2_mul FqFld (q2_frob FqFld a) (q2_frob FqFld b).
Proof. exact (q2_conj_mul FqFld a b). Qed.
Lemma frob_inj0 (a : q2 FqFld) : q2_frob FqFld a = q2_0 FqFld -> a = q2_0 FqFld.
Proof. exact (conj_inj0 FqFld a). Qed.
Lemma psi_pt p : proj_pt Fq2Fld (psi p) =
  match proj_pt Fq2Fld p with
  | Inf => Inf
  | Pt x y => Pt (K := Fq2Fld) (q2_mul FqFld (q2_frob FqFld x) psi_coeff_x) (q2_mul FqFld (q2_frob FqFld y) psi_coeff_y)
  end.
Proof.
  destruct p as [x y z]. unfold proj_pt, psi. cbn [jx jy jz].
  destruct (keqb_spec Fq2Fld z k0) as [->|N].
  - destruct (keqb_spec Fq2Fld (q2_frob FqFld (q2_0 FqFld)) k0) as [_|N]; [reflexivity|]. exfalso. apply N. exact (conj_0 FqFld).
  - assert (N' : q2_frob FqFld z <> q2_0 FqFld) by (intros E; exact (N (frob_inj0 z E))).
    destruct (keqb_spec Fq2Fld (q2_frob FqFld z) k0) as [E|_]; [destruct (N' E)|].
    exact (f_equal2 (@Pt Fq2Fld) (frob_quot Fq2Fld (q2_frob FqFld) psi_coeff_x x z frob_mul2 N N') (frob_quot Fq2Fld (q2_frob FqFld) psi_coeff_y y z frob_mul2 N N')).
Qed.
