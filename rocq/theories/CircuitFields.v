(** The two fields circuits are built over, and their curves, meet the conditions of the gadget theorems. *)
From Coq Require Import ZArith List Bool Lia Znumtheory Zpow_facts.
From Verif Require Import LimbModel LimbProofs MontProofs Primes FieldModel FieldSpec FieldProofs DigitProofs PowProofs FieldMore ClaimsField Algebra
  CurveSpec WeierModel ExtParams CurveParams R1csModel R1csSpec RangeProofs.
Import ListNotations.
Local Open Scope Z_scope.

Lemma bval_be l : Forall (fun b => b = 0 \/ b = 1) l -> bval (map (Z.eqb 1) l) = be_value 2 l.
Proof.
  induction l as [|d l IH]; intros H; [reflexivity|]. inversion H as [|? ? Hd Hl]; subst. cbn [map bval]. rewrite be_value_cons, IH, map_length by exact Hl.
  f_equal. destruct Hd as [-> | ->]; cbn [Z.eqb Pos.eqb Z.b2z]; lia.
Qed.

Section One.
Variables (P : fparams) (m : Z).
Hypothesis BN : bn_field P m.
Hypothesis OK : params_ok P m.
Hypothesis PR : prime m.
Let K := LimbFld P m OK PR.
(** [to_bits] of the field, as bits. *)
Definition f_bits (v : K) : list bool := map (Z.eqb 1) (fto_bits P (lf_limbs m v)).
Definition f_pow2 (k : nat) : K := lf_mk P m OK (2 ^ Z.of_nat k).
Definition f_val (v : K) : Z := lf_val P m v.
Lemma f_represents (v : K) : represents m (lf_limbs m v) (f_val v).
Proof. apply represents_rep, (lf_rep P m OK). Qed.
Lemma m_bits : 2 ^ 253 < m < 2 ^ 254.
Proof. destruct BN as [[_ ->]|[_ ->]]; rewrite ?R_MOD_val, ?Q_MOD_val; split; reflexivity. Qed.
Lemma circuit_field_ok : circuit_field K f_val m f_bits f_pow2 (@k0 K) 254.
Proof.
  pose proof m_bits as MB. constructor.
  - exact MB.
  - reflexivity.
  - intros v. unfold f_bits. rewrite map_length. apply (C07_to_bits P m _ _ BN (f_represents v)).
  - intros v. unfold f_bits. destruct (C07_to_bits P m _ _ BN (f_represents v)) as (_ & A & B). rewrite bval_be by exact A. exact B.
  - intros v. apply (lf_val_range P m OK).
  - intros v w. apply (lf_val_inj P m OK).
  - apply (lf_val_0 P m OK).
  - apply (lf_val_1 P m OK).
  - intros v w. apply (lf_val_add P m OK).
  - intros v w. apply (lf_val_mul P m OK).
  - transitivity ((lf_val P m (lf_0 P m OK) - lf_val P m (lf_1 P m OK)) mod m); [apply (lf_val_sub P m OK)|].
    rewrite (lf_val_0 P m OK), (lf_val_1 P m OK). replace (0 - 1) with (m - 1 + (-1) * m) by ring. rewrite Z.mod_add by lia. apply Z.mod_small. lia.
  - intros k Hk. transitivity ((lf_val P m (f_pow2 k) - lf_val P m (lf_1 P m OK)) mod m); [apply (lf_val_sub P m OK)|]. unfold f_pow2.
    rewrite (lf_val_mk P m OK), (lf_val_1 P m OK). assert (2 ^ Z.of_nat k <= 2 ^ 253) by (apply Z.pow_le_mono_r; lia).
    assert (0 < 2 ^ Z.of_nat k) by (apply Z.pow_pos_nonneg; lia). rewrite (Z.mod_small (2 ^ _)) by lia. apply Z.mod_small. lia.
Qed.
(** [pow_of_2] drops no carry for exponents below 254. *)
Fixpoint dbl_ok (n : nat) (l : l4) : bool := match n with O => true | S n => negb (drops_fast l) && dbl_ok n (fadd P l l) end.
Lemma dbl_ok_all n : forall l x i a, rep m l (x mod m) -> dbl_ok n l = true -> (i < n)%nat -> rep m a ((x * 2 ^ Z.of_nat i) mod m) -> drops_carry a = false.
Proof.
  pose proof m_bits as MB. induction n as [|n IH]; intros l x i a Rl H Hi Ra; [lia|]. cbn [dbl_ok] in H. apply andb_prop in H as [H1 H2].
  destruct i as [|i].
  - cbn [Z.of_nat] in Ra. rewrite Z.pow_0_r, Z.mul_1_r in Ra. rewrite (rep_inj m _ _ _ Ra Rl), <- drops_fast_eq. apply negb_true_iff, H1.
  - apply (IH (fadd P l l) (2 * x) i a); [|exact H2|lia|].
    + replace ((2 * x) mod m) with ((x mod m + x mod m) mod m); [exact (rep_add P m OK l l _ _ Rl Rl)|].
      rewrite <- Z.add_mod by lia. f_equal. ring.
    + rewrite Nat2Z.inj_succ, Z.pow_succ_r in Ra by lia. replace (2 * x * 2 ^ Z.of_nat i) with (x * (2 * 2 ^ Z.of_nat i)) by ring. exact Ra.
Qed.
Lemma two_carry_free : dbl_ok 128 (fone P) = true -> forall k, (k < 254)%nat -> carry_free m 2 (Z.of_nat k).
Proof.
  intros CK k Hk. pose proof m_bits as MB.
  intros j a Hj Ra. apply represents_rep in Ra. set (i := Z.of_nat k / 2 ^ j) in *.
  assert (Hi : 0 <= i < 128).
  { split; [apply Z.div_pos; [lia|apply Z.pow_pos_nonneg; lia]|]. apply Z.div_lt_upper_bound; [apply Z.pow_pos_nonneg; lia|].
    assert (2 ^ 1 <= 2 ^ j) by (apply Z.pow_le_mono_r; lia). change (2 ^ 1) with 2 in *. nia. }
  assert (R1 : rep m (fone P) (1 mod m)) by (rewrite Z.mod_1_l by lia; exact (rep_one P m OK)).
  apply (dbl_ok_all 128 (fone P) 1 (Z.to_nat i) a R1 CK); [lia|]. rewrite Z2Nat.id, Z.mul_1_l by lia. exact Ra.
Qed.
Lemma pow_of_2_exact : dbl_ok 128 (fone P) = true ->
  forall k, (k < 254)%nat -> pow_of_2 P (Z.of_nat k) = lf_limbs m (f_pow2 k).
Proof.
  intros CK k Hk.
  assert (H64 : 0 <= Z.of_nat k < 2 ^ 64) by (change (2 ^ 64) with 18446744073709551616; lia).
  pose proof (C06_pow_of_2_when_exact P m (Z.of_nat k) BN H64 (two_carry_free CK k Hk)) as R. apply (proj1 (represents_rep _ _ _)) in R.
  pose proof (lf_rep P m OK (f_pow2 k)) as Q. unfold f_pow2 in Q at 2. rewrite (lf_val_mk P m OK) in Q.
  exact (rep_inj m _ _ _ R Q).
Qed.
(** A constant that is not a cube: the curve [y^2 = x^3 + b] has no point of order two. *)
Lemma no_cube (e : Z) (b : K) : m - 1 = 3 * e -> 0 <= e -> powmod (- f_val b) e m <> 1 -> f_val b <> 0 ->
  forall x : K, kadd (kmul (kmul x x) x) b <> k0.
Proof.
  pose proof m_bits as MB. intros E He N NZ x H. apply N. clear N.
  apply (f_equal f_val) in H. unfold f_val in *.
  assert (H' : (lf_val P m x * lf_val P m x * lf_val P m x + lf_val P m b) mod m = 0).
  { transitivity (lf_val P m (kadd (kmul (kmul x x) x) b)); [|rewrite H; apply (lf_val_0 P m OK)].
    change (lf_val P m (kadd (kmul (kmul x x) x) b)) with (lf_val P m (lf_add P m OK (lf_mul P m OK (lf_mul P m OK x x) x) b)).
    rewrite (lf_val_add P m OK), !(lf_val_mul P m OK), Z.mul_mod_idemp_l, Z.add_mod_idemp_l by lia. reflexivity. }
  set (X := lf_val P m x) in *. set (B := lf_val P m b) in *.
  assert (C : (- B) mod m = (X ^ 3) mod m).
  { apply (Z.mod_divide _ m ltac:(lia)) in H'. destruct H' as [q Hq]. replace (- B) with (X ^ 3 + (- q) * m) by (rewrite Z.mul_opp_l, <- Hq; ring).
    apply Z.mod_add. lia. }
  rewrite powmod_spec by lia. rewrite Zpower_mod, C, <- Zpower_mod by lia. rewrite <- Z.pow_mul_r by lia.
  replace (3 * e) with (m - 1) by lia. rewrite (fermat m X PR); [apply Z.mod_1_l; lia|].
  intros D. apply NZ. fold B. apply (Z.mod_divide X m ltac:(lia)) in D.
  assert (Z0 : (- B) mod m = 0).
  { rewrite C, Zpower_mod, D by lia. reflexivity. }
  apply (Z.mod_divide (- B) m ltac:(lia)) in Z0. apply Z.divide_opp_r in Z0; rewrite Z.opp_involutive in Z0. apply (Z.mod_divide B m ltac:(lia)) in Z0.
  rewrite Z.mod_small in Z0; [exact Z0|]. apply (lf_val_range P m OK).
Qed.
(** The same with the ladder of Primes.v and a small residue [c] that is [b] or [- b] ([- 1] is a cube). *)
Lemma no_cube_small (c : positive) (b : K) : let e := (m - 1) / 3 in m - 1 = 3 * e -> 0 < e -> Z.even e = true -> Z.odd m = true ->
  f_val b = Zpos c \/ f_val b = m - Zpos c -> f_val b <> 0 -> (fastpow c (Z.to_pos e) m =? 1) = false ->
  forall x : K, kadd (kmul (kmul x x) x) b <> k0.
Proof.
  intros e E He EV OD C NZ N. pose proof m_bits as MB. assert (Hm : 0 < m) by lia. apply (no_cube e b E); [lia| |exact NZ]. apply Z.eqb_neq in N. intros X. apply N. clear N.
  rewrite (fastpow_spec m Hm OD), Z2Pos.id by exact He. rewrite <- X, powmod_spec by lia.
  destruct C as [-> | ->].
  - rewrite Z.pow_opp_even by (apply Z.even_spec; exact EV). reflexivity.
  - rewrite (Zpower_mod (- _)) by exact Hm. replace (- (m - Zpos c)) with (Zpos c + (-1) * m) by ring. rewrite Z.mod_add by lia. apply Zpower_mod. exact Hm.
Qed.
End One.

(** ** Bn254Driver (nova/src/driver.rs:25-41): circuits over Fr, Grumpkin points; GrumpkinDriver (6-23): circuits over Fq, G1 points. *)
Definition fr_bits : FrFld -> list bool := f_bits fr R_MOD fr_ok R_MOD_prime.
Definition fr_pow2 : nat -> FrFld := f_pow2 fr R_MOD fr_ok R_MOD_prime.
Lemma fr_circuit : circuit_field FrFld fr_val R_MOD fr_bits fr_pow2 k0 254.
Proof. exact (circuit_field_ok fr R_MOD (or_introl (conj eq_refl eq_refl)) fr_ok R_MOD_prime). Qed.
Definition fq_bits : FqFld -> list bool := f_bits fq Q_MOD fq_ok Q_MOD_prime.
Definition fq_pow2 : nat -> FqFld := f_pow2 fq Q_MOD fq_ok Q_MOD_prime.
Lemma fq_circuit : circuit_field FqFld fq_val Q_MOD fq_bits fq_pow2 k0 254.
Proof. exact (circuit_field_ok fq Q_MOD (or_intror (conj eq_refl eq_refl)) fq_ok Q_MOD_prime). Qed.

(** [pow_of_2] and [MODULUS - one] as the limb code computes them. *)
Lemma fr_pow2_code k : (k < 254)%nat -> pow_of_2 fr (Z.of_nat k) = lf_limbs R_MOD (fr_pow2 k).
Proof. apply (pow_of_2_exact fr R_MOD (or_introl (conj eq_refl eq_refl)) fr_ok R_MOD_prime). vm_cast_no_check (eq_refl true). Qed.
Lemma fq_pow2_code k : (k < 254)%nat -> pow_of_2 fq (Z.of_nat k) = lf_limbs Q_MOD (fq_pow2 k).
Proof. apply (pow_of_2_exact fq Q_MOD (or_intror (conj eq_refl eq_refl)) fq_ok Q_MOD_prime). vm_cast_no_check (eq_refl true). Qed.
Lemma fr_modulus_code : fsub fr (fmod fr) (fone fr) = lf_limbs R_MOD (ksub (k0 : FrFld) k1).
Proof. apply (proj1 (eqb4_eq _ _)). vm_cast_no_check (eq_refl true). Qed.
Lemma fq_modulus_code : fsub fq (fmod fq) (fone fq) = lf_limbs Q_MOD (ksub (k0 : FqFld) k1).
Proof. apply (proj1 (eqb4_eq _ _)). vm_cast_no_check (eq_refl true). Qed.

(** Neither curve has a point of order two. *)
Lemma grumpkin_no2 : forall x : FrFld, kadd (kmul (kmul x x) x) grumpkin_param_b <> k0.
Proof.
  apply (no_cube_small fr R_MOD (or_introl (conj eq_refl eq_refl)) fr_ok R_MOD_prime 17).
  - rewrite R_MOD_val. reflexivity.
  - rewrite R_MOD_val. reflexivity.
  - rewrite R_MOD_val. reflexivity.
  - rewrite R_MOD_val. reflexivity.
  - right. apply Z.eqb_eq. vm_cast_no_check (eq_refl true).
  - apply Z.eqb_neq. vm_cast_no_check (eq_refl false).
  - vm_cast_no_check (eq_refl false).
Qed.
Lemma g1_no2 : forall x : FqFld, kadd (kmul (kmul x x) x) g1_param_b <> k0.
Proof.
  apply (no_cube_small fq Q_MOD (or_intror (conj eq_refl eq_refl)) fq_ok Q_MOD_prime 3).
  - rewrite Q_MOD_val. reflexivity.
  - rewrite Q_MOD_val. reflexivity.
  - rewrite Q_MOD_val. reflexivity.
  - rewrite Q_MOD_val. reflexivity.
  - left. apply Z.eqb_eq. vm_cast_no_check (eq_refl true).
  - apply Z.eqb_neq. vm_cast_no_check (eq_refl false).
  - vm_cast_no_check (eq_refl false).
Qed.
