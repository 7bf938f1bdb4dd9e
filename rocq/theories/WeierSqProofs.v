(** The point arithmetic with the limb [square]: when it is the exact one, and when it is not. *)
From Coq Require Import ZArith List Bool Field Lia.
From Verif Require Import LimbModel LimbProofs FieldModel FieldSpec FieldProofs Algebra ExtModel ExtParams ExtProofs ExtFrob
  CurveSpec WeierModel WeierProofs CurveParams WeierSqModel.
Import ListNotations.

Section Exact.
Variable F : Fld.
Variable sq : F -> F.
Variables b b3 : F.
Local Open Scope fld_scope.
Add Field SqF : (kth F).
Definition sq_exact (l : list F) : Prop := Forall (fun a => sq a = ksq a) l.
Lemma ex_double_affine p : sq_exact (double_affine_squares F p) -> sq_double_affine_point F sq b3 p = double_affine_point F b3 p.
Proof. intros H. inversion_clear H as [|? ? E _]. unfold sq_double_affine_point, double_affine_point. rewrite E. reflexivity. Qed.
Lemma ex_double p : sq_exact (double_projective_squares F p) -> sq_double_projective_point F sq b3 p = double_projective_point F b3 p.
Proof. intros H. inversion_clear H as [|? ? E H']. inversion_clear H' as [|? ? E' _]. unfold sq_double_projective_point, double_projective_point. rewrite E, E'. reflexivity. Qed.
Lemma ex_add_affine p q : sq_exact (add_affine_squares F p q) -> sq_add_affine_point F sq b3 p q = add_affine_point F b3 p q.
Proof.
  unfold add_affine_squares, sq_add_affine_point, add_affine_point, aff_is_identity. destruct (ainf p); [reflexivity|]. destruct (ainf q); [reflexivity|]. cbn [orb].
  destruct (keqb (ax p) (ax q)); [destruct (keqb (ay p) (ay q)); [apply ex_double_affine|reflexivity]|].
  intros H. inversion_clear H as [|? ? E H']. inversion_clear H' as [|? ? E' _]. cbv zeta. rewrite E, E'. reflexivity.
Qed.
Lemma ex_add_mixed p q : sq_exact (add_mixed_squares F p q) -> sq_add_mixed_point F sq b3 p q = add_mixed_point F b3 p q.
Proof.
  unfold add_mixed_squares, sq_add_mixed_point, add_mixed_point, aff_is_identity. destruct (ainf p); [reflexivity|]. destruct (proj_is_identity F q); [reflexivity|]. cbn [orb].
  cbv zeta. destruct (keqb (ax p * jz q) (jx q)); [destruct (keqb (ay p * jz q) (jy q)); [apply ex_double_affine|reflexivity]|].
  intros H. inversion_clear H as [|? ? E H']. inversion_clear H' as [|? ? E' _]. rewrite E, E'. reflexivity.
Qed.
Lemma ex_add p q : sq_exact (add_projective_squares F p q) -> sq_add_projective_point F sq b3 p q = add_projective_point F b3 p q.
Proof.
  unfold add_projective_squares, sq_add_projective_point, add_projective_point. destruct (proj_is_identity F p); [reflexivity|]. destruct (proj_is_identity F q); [reflexivity|]. cbn [orb].
  cbv zeta. destruct (keqb (jx p * jz q) (jx q * jz p)); [destruct (keqb (jy p * jz q) (jy q * jz p)); [apply ex_double|reflexivity]|].
  intros H. inversion_clear H as [|? ? E H']. inversion_clear H' as [|? ? E' _]. rewrite E, E'. reflexivity.
Qed.
Lemma ex_digits point ds : forall res, sq_exact (digits_squares F b3 point res ds) ->
  fold_left (sq_scalar_step F sq b3 point) ds res = fold_left (scalar_step F b3 point) ds res.
Proof.
  induction ds as [|d ds IH]; [reflexivity|]. intros res H. cbn [digits_squares fold_left] in *. apply Forall_app in H as [H1 H2].
  unfold step_squares in H1. cbv zeta in H1. apply Forall_app in H1 as [HD HA].
  assert (E : sq_scalar_step F sq b3 point res d = scalar_step F b3 point res d).
  { unfold sq_scalar_step, scalar_step, sq_proj_sub, proj_sub, proj_add. rewrite (ex_double res HD). cbv zeta. destruct d; [reflexivity| |]; apply ex_add, HA. }
  rewrite E. apply IH, H2.
Qed.
Lemma ex_scalar P point k : sq_exact (scalar_squares F b3 P point k) -> sq_scalar_point F sq b3 P point k = scalar_point F b3 P point k.
Proof.
  unfold scalar_squares, sq_scalar_point, scalar_point. destruct (fto_nafs P k) as [ds|]; [|reflexivity]. intros H. unfold sq_scalar_digits, scalar_digits. rewrite (ex_digits point ds _ H). reflexivity.
Qed.
Lemma ex_on_curve p : sq_exact (on_curve_squares F p) -> sq_aff_is_on_curve F sq b p = aff_is_on_curve F b p.
Proof.
  unfold on_curve_squares, sq_aff_is_on_curve, aff_is_on_curve. destruct (ainf p); [reflexivity|].
  intros H. inversion_clear H as [|? ? E H']. inversion_clear H' as [|? ? E' _]. rewrite E, E'. reflexivity.
Qed.
Lemma ex_proj_on_curve p : sq_exact (proj_on_curve_squares F p) -> sq_proj_is_on_curve F sq b p = proj_is_on_curve F b p.
Proof.
  unfold proj_on_curve_squares, sq_proj_is_on_curve, proj_is_on_curve. destruct (proj_is_identity F p); [reflexivity|].
  intros H. inversion_clear H as [|? ? E H']. inversion_clear H' as [|? ? E' H'']. inversion_clear H'' as [|? ? E'' _]. rewrite E, E', E''. reflexivity.
Qed.

(** A [square] that is off by a constant on some elements. *)
Variable dr : F -> bool.
Variable dl : F.
Hypothesis SQ : forall a, sq a = ksq a + (if dr a then dl else 0).
Hypothesis DL : dl <> 0.
Hypothesis DR0 : dr 0 = false.
Hypothesis DR1 : dr 1 = false.
Lemma k_cancel (u v w : F) : u + v = u + w -> v = w.
Proof. intros E. transitivity (u + v - u); [ring|]. rewrite E. ring. Qed.
Lemma on_curve_accepts x y : sq_aff_is_on_curve F sq b (Aff x y false) = true <->
  y * y + (if dr y then dl else 0) = (x * x + (if dr x then dl else 0)) * x + b.
Proof. unfold sq_aff_is_on_curve. cbn [ainf ax ay]. rewrite (keqb_eq F), !SQ. reflexivity. Qed.
Lemma on_curve_iff x y : y * y = x * x * x + b ->
  (sq_aff_is_on_curve F sq b (Aff x y false) = true <-> dr x = false /\ dr y = false).
Proof.
  intros H. assert (NX : dr x = true -> x <> 0) by (intros D ->; rewrite DR0 in D; discriminate). rewrite on_curve_accepts, H. destruct (dr x) eqn:DX, (dr y) eqn:DY.
  - split; [|intros [E _]; discriminate]. intros E. exfalso. apply Bool.diff_true_false. rewrite <- DX, <- DR1. f_equal.
    assert (E' : dl = dl * x) by (apply (k_cancel (x * x * x + b)); rewrite E; ring).
    assert (Z0 : dl * (x - 1) = 0) by (transitivity (dl * x - dl); [ring|rewrite <- E'; ring]).
    destruct (kmul_eq0 F _ _ Z0) as [C|C]; [destruct (DL C)|]. transitivity (x - 1 + 1); [ring|rewrite C; ring].
  - split; [|intros [E _]; discriminate]. intros E. exfalso.
    assert (E' : 0 = dl * x) by (apply (k_cancel (x * x * x + b)); rewrite E; ring).
    symmetry in E'. destruct (kmul_eq0 F _ _ E') as [C|C]; [exact (DL C)|exact (NX eq_refl C)].
  - split; [|intros [_ E]; discriminate]. intros E. exfalso. apply DL, (k_cancel (x * x * x + b)). rewrite E. ring.
  - split; [auto|]. intros _. ring.
Qed.
(** Doubling an affine point with a wrong y^2 gives a wrong point. *)
Hypothesis two : 1 + 1 <> (0 : F).
Hypothesis three : 1 + 1 + 1 <> (0 : F).
Hypothesis bnz : b <> 0.
Hypothesis B3 : b3 = b + b + b.
Lemma double_wrong x y : y * y = x * x * x + b -> x <> 0 -> dr y = true ->
  proj_pt F (sq_double_affine_point F sq b3 (Aff x y false)) <> proj_pt F (double_affine_point F b3 (Aff x y false)).
Proof.
  intros H NX DY. assert (NY : y <> 0) by (intros ->; rewrite DR0 in DY; discriminate). unfold sq_double_affine_point, double_affine_point. cbn [ax ay]. rewrite SQ, DY. unfold ksq. set (t := y * y + dl). set (s := y * y). cbv zeta.
  assert (NS : s <> 0) by (apply kmul_neq0; assumption). assert (N8 : kdbl (kdbl (kdbl (1 : F))) <> 0).
  { unfold kdbl. intros E. assert (E' : (1 + 1) * ((1 + 1) * (1 + 1)) = (0 : F)) by (rewrite <- E; ring).
    destruct (kmul_eq0 F _ _ E') as [C|C]; [exact (two C)|]. destruct (kmul_eq0 F _ _ C) as [C'|C']; exact (two C'). }
  assert (K8 : forall v : F, kdbl (kdbl (kdbl v)) = kdbl (kdbl (kdbl 1)) * v) by (intros v; unfold kdbl; ring).
  rewrite (K8 t), (K8 s). set (e := kdbl (kdbl (kdbl 1))) in *.
  assert (NZ : y * (e * s) <> 0) by (repeat apply kmul_neq0; assumption).
  rewrite (proj_pt_fin F _ _ (y * (e * s)) NZ). destruct (kdec F t 0) as [T|T].
  - rewrite (proj_pt_inf F) by (rewrite T; ring). discriminate.
  - assert (NZ' : y * (e * t) <> 0) by (repeat apply kmul_neq0; assumption). rewrite (proj_pt_fin F _ _ (y * (e * t)) NZ').
    intros E. injection E as E _.
    assert (E1 : kdbl ((t - (kdbl b3 + b3)) * (x * y)) * (y * (e * s)) = kdbl ((s - (kdbl b3 + b3)) * (x * y)) * (y * (e * t))).
    { transitivity (kdbl ((t - (kdbl b3 + b3)) * (x * y)) / (y * (e * t)) * (y * (e * t)) * (y * (e * s))); [field; repeat split; assumption|].
      rewrite E. field. repeat split; assumption. }
    assert (E2 : (1 + 1) * ((1 + 1 + 1) * ((1 + 1 + 1) * (b * (x * (y * (y * (e * dl))))))) = 0).
    { unfold kdbl in E1. rewrite B3 in E1.
      transitivity ((1 + 1) * (x * y * y * e) * ((1 + 1 + 1) * (1 + 1 + 1) * b * (t - s))); [unfold t, s; ring|].
      assert (A : forall u v : F, u = v -> u - v = 0) by (intros u v ->; ring). pose proof (A _ _ E1) as E3. rewrite <- E3. ring. }
    revert E2. repeat apply kmul_neq0; assumption.
Qed.
End Exact.

Section SolveSq.
Variable F : Fld.
Local Open Scope fld_scope.
Add Field SolF : (kth F).
Lemma solve_sq (c t s x : F) (d : bool) : c <> 0 -> s * c = x * x * c - (if d then t else 0) -> s = x * x + (if d then - (t / c) else 0).
Proof. intros N E. transitivity (s * c / c); [field; exact N|]. rewrite E. destruct d; field; exact N. Qed.
End SolveSq.

(** ** The limb [square] of Fr and Fq. *)
Section LimbSq.
Local Open Scope Z_scope.
Variables (P : fparams) (m : Z).
Hypothesis OK : params_ok P m.
Hypothesis PR : Znumtheory.prime m.
Let K := LimbFld P m OK PR.
Lemma lf_sq_exact (a : K) : drops_carry (lf_limbs m a) = false -> lf_sq P m OK a = ksq (F := K) a.
Proof. intros D. apply lf_eq. exact (square_is_mul P m OK _ _ (lf_rep P m OK a) D). Qed.
Lemma lf_sq_val (a : K) : (lf_val P m (lf_sq P m OK a) * 2 ^ 128) mod m =
  ((lf_val P m a * lf_val P m a) * 2 ^ 128 - (if drops_carry (lf_limbs m a) then 2 else 0)) mod m.
Proof.
  pose proof (m_gt1 P m OK) as M1. destruct (square_mod P m OK _ _ (lf_rep P m OK a)) as (W & L & E).
  pose proof (lf_rep P m OK a) as (_ & _ & Ea). pose proof (lf_rep P m OK (lf_sq P m OK a)) as (_ & _ & Es).
  change (lf_limbs m (lf_sq P m OK a)) with (fsquare P (lf_limbs m a)) in Es. set (s := lf_val P m (lf_sq P m OK a)) in *. set (x := lf_val P m a) in *.
  rewrite Es, Ea in E. replace (2 ^ 128) with (B ^ 2) by (rewrite Bval; reflexivity).
  apply (cancel_B4 P m OK), (cancel_B4 P m OK).
  rewrite Z.mul_mod_idemp_l in E by lia.
  replace (s * B ^ 2 * B ^ 4 * B ^ 4) with (s * B ^ 4 * B ^ 4 * B ^ 2) by ring. rewrite <- Z.mul_mod_idemp_l, E, Z.mul_mod_idemp_l by lia.
  rewrite Z.mul_sub_distr_r, <- Zminus_mod_idemp_l. rewrite <- (Z.mul_mod_idemp_l (_ * _) (B ^ 2)), <- Z.mul_mod by lia. rewrite Z.mul_mod_idemp_l, Zminus_mod_idemp_l by lia.
  f_equal. destruct (drops_carry (lf_limbs m a)); ring.
Qed.
Definition lf_dl : K := kopp (f := K) (kdiv (f := K) (lf_mk P m OK 2) (lf_mk P m OK (2 ^ 128))).
Hypothesis N128 : (2 ^ 128) mod m <> 0.
Lemma mk128 : lf_mk P m OK (2 ^ 128) <> k0 (f := K).
Proof. intros E. apply (f_equal (lf_val P m)) in E. rewrite lf_val_mk in E. rewrite E in N128. exact (N128 (lf_val_0 P m OK)). Qed.
Lemma lf_sq_form (a : K) : lf_sq P m OK a = kadd (f := K) (ksq (F := K) a) (if drops_carry (lf_limbs m a) then lf_dl else k0).
Proof.
  apply (solve_sq K (lf_mk P m OK (2 ^ 128)) (lf_mk P m OK 2)); [exact mk128|].
  apply (lf_val_inj P m OK). pose proof (m_gt1 P m OK).
  change (lf_val P m (lf_mul P m OK (lf_sq P m OK a) (lf_mk P m OK (2 ^ 128))) = lf_val P m (lf_sub P m OK (lf_mul P m OK (lf_mul P m OK a a) (lf_mk P m OK (2 ^ 128))) (if drops_carry (lf_limbs m a) then lf_mk P m OK 2 else lf_0 P m OK))).
  rewrite lf_val_sub, !lf_val_mul, lf_val_mk, Z.mul_mod_idemp_r, lf_sq_val by lia.
  assert (D : lf_val P m (if drops_carry (lf_limbs m a) then lf_mk P m OK 2 else lf_0 P m OK) mod m = (if drops_carry (lf_limbs m a) then 2 else 0) mod m).
  { destruct (drops_carry (lf_limbs m a)); [rewrite lf_val_mk, Z.mod_mod by lia; reflexivity|rewrite lf_val_0; reflexivity]. }
  symmetry. rewrite Zminus_mod, D, <- Zminus_mod, Z.mul_mod_idemp_l, Zminus_mod_idemp_l by lia.
  rewrite (Z.mul_comm (_ * _)), <- (Zminus_mod_idemp_l (2 ^ 128 mod m * _)), Z.mul_mod_idemp_l, Zminus_mod_idemp_l, Z.mul_comm by lia. reflexivity.
Qed.
End LimbSq.
