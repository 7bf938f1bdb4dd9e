(** Property C72: the Fourier transforms over Fr computed with the limb-level [square], [invert] and [pow], which lose a
    carry on some elements (properties C02, C03, C06).
    Specification: PolySpec.v ([peval], [same_poly], [trimmed]); FieldSpec.v ([drops_carry], [carry_free]). *)
From Coq Require Import ZArith List Bool Field Lia Znumtheory.
From Verif Require Import LimbModel LimbProofs FieldModel FieldSpec FieldProofs PowProofs FieldMore Primes ClaimsField RingPow Algebra DigitProofs
  SqrtProofs ClaimsSqrt CurveSpec CurveGroup CurveParams WeierSqModel WeierSqProofs ClaimsWeierSq.
From Verif Require Import PolyModel PolySpec PolyProofs FftProofs FftInverse ClaimsPoly FftSqModel ClaimsPairSq ClaimsHash.
Import ListNotations.
Local Open Scope Z_scope.
Local Notation F := FrFld.

(** ** [invert] and [pow] on the elements of a limb field. *)
Section Pow.
Variables (P : fparams) (m : Z).
Hypothesis OKP : params_ok P m.
Hypothesis PR : prime m.
Local Notation K := (LimbFld P m OKP PR).
Lemma redb_pow (a : K) e : redb m (pow (lf_limbs m a) e (fR P) (fmod P) (finv P)) = true.
Proof.
  unfold pow. assert (R1 : redb m (fR P) = true) by exact (proj2_sig (lf_1 P m OKP)).
  destruct (eqb4 e zero4); [exact R1|]. destruct (eqb4 _ zero4); [exact (proj2_sig (lf_0 P m OKP))|].
  exact (redb_ladder P m OKP _ _ (proj2_sig a) _ R1).
Qed.
Definition lf_pow (a : K) (v : Z) : K := exist _ (fpow P (lf_limbs m a) v) (redb_pow a (L4 v 0 0 0)).
Lemma lf_pow_limbs (a : K) v : lf_limbs m (lf_pow a v) = fpow P (lf_limbs m a) v. Proof. reflexivity. Qed.
Lemma lf_invert_none (a : K) : lf_invert P m OKP PR a = None <-> a = k0.
Proof.
  pose proof (lf_invert_limbs P m OKP PR a) as L. unfold finvert, invert in L. destruct (eqb4 (lf_limbs m a) zero4) eqn:E.
  - assert (Z : a = k0) by (apply lf_eq; apply eqb4_eq in E; exact E).
    destruct (lf_invert P m OKP PR a); [discriminate L|]. tauto.
  - destruct (lf_invert P m OKP PR a) as [i|]; [|discriminate L]. split; [discriminate|]. intros ->. discriminate E.
Qed.
End Pow.

(** ** The transforms over any field whose [square] and [invert] may be wrong. *)
Section Gen.
Variables (K : Fld) (sq1 : K -> K) (inv1 : K -> option K) (s : nat) (root gen : K).
Hypothesis HF : fft_field K s root gen.
Hypothesis NONE : forall a, inv1 a = None -> a = k0.
Hypothesis ROOT : forall n, s_squares K sq1 n root = kpow root (2 ^ n).
Local Notation w k := (kpow root (2 ^ (s - k))).
Lemma g_range k f : s_fft_new K sq1 inv1 s root gen k = Some f -> (1 <= k <= s)%nat.
Proof. unfold s_fft_new. destruct (Nat.eqb_spec k 0); [discriminate|]. destruct (Nat.ltb_spec s k); [discriminate|]. lia. Qed.
Lemma g_some a : a <> k0 -> exists i, inv1 a = Some i.
Proof. intros N. destruct (inv1 a) as [i|] eqn:E; [exists i; reflexivity|destruct (N (NONE a E))]. Qed.
Lemma g_new k : (1 <= k <= s)%nat -> exists i1 i2 i3, inv1 (w k) = Some i1 /\ inv1 gen = Some i2 /\ inv1 (kofnat (2 ^ k)%nat) = Some i3 /\
  s_fft_new K sq1 inv1 s root gen k = Some (mkFft K (2 ^ k) (powers K k1 (w k) (2 ^ (k - 1))) (powers K k1 i1 (2 ^ (k - 1))) (powers K k1 gen (2 ^ k)) (powers K k1 i2 (2 ^ k)) i3 (rev_pairs k)).
Proof.
  intros Hk. destruct HF as [two HC].
  destruct (g_some (w k)) as [i1 E1]; [exact (wroot_neq0 K _ _ _ HC k Hk)|].
  destruct (g_some gen) as [i2 E2]; [exact (proj2 (proj2 (proj2 HC)))|].
  destruct (g_some (kofnat (2 ^ k)%nat)) as [i3 E3]; [exact (kofnat_pow2 K two k)|].
  exists i1, i2, i3. split; [exact E1|]. split; [exact E2|]. split; [exact E3|].
  unfold s_fft_new. destruct (Nat.eqb_spec k 0); [lia|]. destruct (Nat.ltb_spec s k); [lia|]. rewrite ROOT, E1, E2, E3. reflexivity.
Qed.
Lemma g_exact k : (1 <= k <= s)%nat -> exists e, fft_new K s root gen k = Some e /\
  e = mkFft K (2 ^ k) (powers K k1 (w k) (2 ^ (k - 1))) (powers K k1 (kinv (w k)) (2 ^ (k - 1))) (powers K k1 gen (2 ^ k)) (powers K k1 (kinv gen) (2 ^ k)) (kinv (kofnat (2 ^ k)%nat)) (rev_pairs k).
Proof. intros Hk. destruct HF as [two HC]. eexists. split; [exact (fft_new_ok K two _ _ _ HC k Hk)|reflexivity]. Qed.
Lemma g_dft k f : s_fft_new K sq1 inv1 s root gen k = Some f -> exists e, fft_new K s root gen k = Some e /\
  (forall p, dft K f p = dft K e p) /\ (forall p, coset_dft K f p = coset_dft K e p).
Proof.
  intros E. pose proof (g_range k f E) as Hk. destruct (g_new k Hk) as (i1 & i2 & i3 & _ & _ & _ & E'). rewrite E in E'. injection E' as ->.
  destruct (g_exact k Hk) as (e & Ee & ->). eexists. split; [exact Ee|]. split; reflexivity.
Qed.
Lemma kinvert_kinv (a i : K) : kinvert a = Some i -> i = kinv a.
Proof. unfold kinvert. destruct (kis0 a); [discriminate|]. intros X. injection X as <-. reflexivity. Qed.
Lemma g_idft k f : s_fft_new K sq1 inv1 s root gen k = Some f -> inv1 (w k) = kinvert (w k) -> inv1 (kofnat (2 ^ k)%nat) = kinvert (kofnat (2 ^ k)%nat) ->
  exists e, fft_new K s root gen k = Some e /\ (forall v, idft K f v = idft K e v).
Proof.
  intros E A B. pose proof (g_range k f E) as Hk. destruct (g_new k Hk) as (i1 & i2 & i3 & I1 & _ & I3 & E'). rewrite E in E'. injection E' as ->.
  rewrite A in I1. rewrite B in I3. apply kinvert_kinv in I1, I3. subst i1 i3. destruct (g_exact k Hk) as (e & Ee & ->). eexists. split; [exact Ee|]. reflexivity.
Qed.
Lemma g_all k f : s_fft_new K sq1 inv1 s root gen k = Some f -> inv1 (w k) = kinvert (w k) -> inv1 (kofnat (2 ^ k)%nat) = kinvert (kofnat (2 ^ k)%nat) ->
  inv1 gen = kinvert gen -> fft_new K s root gen k = Some f.
Proof.
  intros E A B C. pose proof (g_range k f E) as Hk. destruct (g_new k Hk) as (i1 & i2 & i3 & I1 & I2 & I3 & E'). rewrite E in E'. injection E' as ->.
  rewrite A in I1. rewrite B in I3. rewrite C in I2. apply kinvert_kinv in I1, I2, I3. subst i1 i2 i3. destruct (g_exact k Hk) as (e & Ee & ->). exact Ee.
Qed.
Lemma g_round k f p : s_fft_new K sq1 inv1 s root gen k = Some f -> inv1 (w k) = kinvert (w k) -> inv1 (kofnat (2 ^ k)%nat) = kinvert (kofnat (2 ^ k)%nat) ->
  (length p <= 2 ^ k)%nat -> exists v, dft K f p = Some v /\ idft K f v = Some (coeffs_new K p).
Proof.
  intros E A B L. pose proof (g_range k f E) as Hk. destruct (g_dft k f E) as (e & Ee & D & _). destruct (g_idft k f E A B) as (e' & Ee' & I). rewrite Ee in Ee'. injection Ee' as <-.
  destruct (proj1 (C27_round_trips K s root gen HF k e Hk Ee) p L) as (v & X & Y). exists v. rewrite D, I. split; assumption.
Qed.
End Gen.

Definition fr_invert : F -> option F := lf_invert fr R_MOD fr_ok R_MOD_prime.
Definition fr_pow : F -> Z -> F := lf_pow fr R_MOD fr_ok R_MOD_prime.
Theorem C72_functions_are_the_code a v : option_map (lf_limbs R_MOD) (fr_invert a) = finvert fr (lf_limbs R_MOD a) /\
  lf_limbs R_MOD (fr_pow a v) = fpow fr (lf_limbs R_MOD a) v /\ lf_limbs R_MOD (fr_sq a) = fsquare fr (lf_limbs R_MOD a).
Proof. split; [exact (lf_invert_limbs fr R_MOD fr_ok R_MOD_prime a)|]. split; reflexivity. Qed.

(** [Fft::new], [z] and the division by z on the coset, on limbs, with the constants of fr.rs (C27_constants). *)
Definition limb_fft (k : nat) : option (fft F) := s_fft_new F fr_sq fr_invert fr_two_adicity fr_root fr_gen k.
Definition limb_z (f : fft F) (tau : F) : F := s_fft_z F fr_pow f tau.
Definition limb_divide (f : fft F) (points : list F) : option (list F) := s_divide_by_z_on_coset F fr_invert fr_pow f fr_gen points.
Definition fft_domain (k : nat) : F := kpow fr_root (2 ^ (fr_two_adicity - k)).

Lemma fr_exact a : fr_sq a = kmul a a <-> fr_lost a = false.
Proof. destruct C65_curves as (_ & _ & (_ & A)). exact (A a). Qed.

(** *** The root of unity is squared without a loss. *)
Section Towers.
Variables (K : Fld) (sq1 : K -> K) (lost : K -> bool).
Hypothesis EX : forall a, sq1 a = kmul a a <-> lost a = false.
Lemma squares_S' n (x : K) : squares K (S n) x = kmul (squares K n x) (squares K n x).
Proof. revert x. induction n as [|n IH]; intros x; [reflexivity|]. change (squares K (S (S n)) x) with (squares K (S n) (ksq x)). rewrite IH. reflexivity. Qed.
Lemma s_squares_S' n (x : K) : s_squares K sq1 (S n) x = sq1 (s_squares K sq1 n x).
Proof. revert x. induction n as [|n IH]; intros x; [reflexivity|]. change (s_squares K sq1 (S (S n)) x) with (s_squares K sq1 (S n) (sq1 x)). rewrite IH. reflexivity. Qed.
Lemma s_squares_exact n (x : K) : (forall i, (i < n)%nat -> lost (squares K i x) = false) -> s_squares K sq1 n x = squares K n x.
Proof.
  induction n as [|n IH]; intros H; [reflexivity|]. rewrite s_squares_S', squares_S', IH by (intros; apply H; lia). apply EX, H. lia.
Qed.
(** The last square decides when the others are exact. *)
Lemma s_squares_last n (x : K) : (forall i, (i < n)%nat -> lost (squares K i x) = false) ->
  (s_squares K sq1 (S n) x = squares K (S n) x <-> lost (squares K n x) = false).
Proof. intros H. rewrite s_squares_S', squares_S', (s_squares_exact n x H). apply EX. Qed.
End Towers.
Lemma squares_sqi n : forall x : F, squares F n x = sqi F n x.
Proof. induction n as [|n IH]; intros x; [reflexivity|]. rewrite sqi_S'. exact (IH (ksq x)). Qed.
Lemma root_limbs : lf_limbs R_MOD fr_root = fr_root_of_unity.
Proof. apply (proj1 (eqb4_eq _ _)). vm_compute. reflexivity. Qed.
Lemma root_tower i : fr_lost (squares F i fr_root) = false.
Proof.
  unfold fr_lost. rewrite squares_sqi. pose proof (sqi_limbs fr R_MOD fr_ok R_MOD_prime i fr_root) as E. rewrite root_limbs in E.
  exact (eq_trans (f_equal drops_carry E) (tower_ok_all fr 28 fr_one_one _ i fr_tower_ok)).
Qed.
Lemma root_exact n : s_squares F fr_sq n fr_root = kpow fr_root (2 ^ n).
Proof. rewrite <- squares_pow. apply (s_squares_exact F fr_sq fr_lost fr_exact). intros i _. apply root_tower. Qed.

Lemma fr_none (a : F) : fr_invert a = None -> a = k0.
Proof. exact (proj1 (lf_invert_none fr R_MOD fr_ok R_MOD_prime a)). Qed.
(** [Fft::new(k)] works exactly for [1 <= k <= S]: no inverse is missing. *)
Theorem C72_new k : (exists f, limb_fft k = Some f /\ fft_n f = (2 ^ k)%nat) <-> (1 <= k <= fr_two_adicity)%nat.
Proof.
  split.
  - intros (f & E & _). exact (g_range F fr_sq fr_invert _ _ _ k f E).
  - intros Hk. destruct (g_new F fr_sq fr_invert _ _ _ C27_scalar_field fr_none root_exact k Hk) as (i1 & i2 & i3 & _ & _ & _ & E).
    eexists. split; [exact E|reflexivity].
Qed.
(** [dft] and [coset_dft] evaluate, with no proviso. *)
Theorem C72_dft k f p : limb_fft k = Some f -> (length p <= 2 ^ k)%nat -> exists v, dft F f p = Some v /\ length v = (2 ^ k)%nat /\
  (forall i, (i < 2 ^ k)%nat -> nth_error v i = Some (peval p (kpow (fft_domain k) i))).
Proof.
  intros E L. destruct (g_dft F fr_sq fr_invert _ _ _ C27_scalar_field fr_none root_exact k f E) as (e & Ee & D & _). rewrite D.
  exact (C27_dft F fr_two_adicity fr_root fr_gen C27_scalar_field k e (g_range F fr_sq fr_invert _ _ _ k f E) Ee p L).
Qed.
Theorem C72_coset_dft k f p : limb_fft k = Some f -> (length p <= 2 ^ k)%nat -> exists v, coset_dft F f p = Some v /\ length v = (2 ^ k)%nat /\
  (forall i, (i < 2 ^ k)%nat -> nth_error v i = Some (peval p (kmul fr_gen (kpow (fft_domain k) i)))).
Proof.
  intros E L. destruct (g_dft F fr_sq fr_invert _ _ _ C27_scalar_field fr_none root_exact k f E) as (e & Ee & _ & D). rewrite D.
  exact (C27_coset_dft F fr_two_adicity fr_root fr_gen C27_scalar_field k e (g_range F fr_sq fr_invert _ _ _ k f E) Ee p L).
Qed.

(** The inverse transforms need the inverses of the root, of n and, on the coset, of the generator. *)
Definition exact_inverse (a : F) : Prop := carry_free R_MOD (fr_val a) (R_MOD - 2).
Lemma inverse_exact a : exact_inverse a -> fr_invert a = kinvert a.
Proof. exact (lf_invert_exact fr R_MOD fr_ok R_MOD_prime a). Qed.
Theorem C72_idft_when_exact k f v : limb_fft k = Some f -> exact_inverse (fft_domain k) -> exact_inverse (kofnat (2 ^ k)%nat) ->
  exists p, idft F f v = Some p /\ trimmed p /\ (length p <= 2 ^ k)%nat /\
  (forall i, (i < 2 ^ k)%nat -> peval p (kpow (fft_domain k) i) = nth i v k0) /\
  (forall q, (length q <= 2 ^ k)%nat -> (forall i, (i < 2 ^ k)%nat -> peval q (kpow (fft_domain k) i) = nth i v k0) -> same_poly q p).
Proof.
  intros E A B. destruct (g_idft F fr_sq fr_invert _ _ _ C27_scalar_field fr_none root_exact k f E (inverse_exact _ A) (inverse_exact _ B)) as (e & Ee & I). rewrite I.
  exact (C27_idft F fr_two_adicity fr_root fr_gen C27_scalar_field k e (g_range F fr_sq fr_invert _ _ _ k f E) Ee v).
Qed.
Theorem C72_coset_idft_when_exact k f v : limb_fft k = Some f -> exact_inverse (fft_domain k) -> exact_inverse (kofnat (2 ^ k)%nat) -> exact_inverse fr_gen ->
  exists p, coset_idft F f v = Some p /\ trimmed p /\ (length p <= 2 ^ k)%nat /\
  (forall i, (i < 2 ^ k)%nat -> peval p (kmul fr_gen (kpow (fft_domain k) i)) = nth i v k0) /\
  (forall q, (length q <= 2 ^ k)%nat -> (forall i, (i < 2 ^ k)%nat -> peval q (kmul fr_gen (kpow (fft_domain k) i)) = nth i v k0) -> same_poly q p).
Proof.
  intros E A B C. pose proof (g_all F fr_sq fr_invert _ _ _ C27_scalar_field fr_none root_exact k f E (inverse_exact _ A) (inverse_exact _ B) (inverse_exact _ C)) as Ee.
  exact (C27_coset_idft F fr_two_adicity fr_root fr_gen C27_scalar_field k f (g_range F fr_sq fr_invert _ _ _ k f E) Ee v).
Qed.
(** Transforming there and back is the identity. *)
Theorem C72_round_trip_when_exact k f p : limb_fft k = Some f -> exact_inverse (fft_domain k) -> exact_inverse (kofnat (2 ^ k)%nat) -> (length p <= 2 ^ k)%nat ->
  exists v, dft F f p = Some v /\ idft F f v = Some (coeffs_new F p).
Proof. intros E A B L. exact (g_round F fr_sq fr_invert _ _ _ C27_scalar_field fr_none root_exact k f p E (inverse_exact _ A) (inverse_exact _ B) L). Qed.

(** ** The vanishing polynomial. *)
(** [pow] with exponent [2^k] squares [k] times. *)
Fixpoint sq_code (P : fparams) (n : nat) (l : l4) : l4 := match n with O => l | S n => sq_code P n (fsquare P l) end.
Definition pow2_bits_ok (k : nat) : bool :=
  forallb (fun p => fst p =? snd p) (combine (to_bits (L4 (2 ^ Z.of_nat k) 0 0 0)) (repeat 0 (255 - k) ++ 1 :: repeat 0 k)) &&
  Nat.eqb (length (to_bits (L4 (2 ^ Z.of_nat k) 0 0 0))) 256.
Lemma combine_eq (l r : list Z) : length l = length r -> forallb (fun p => fst p =? snd p) (combine l r) = true -> l = r.
Proof.
  revert r. induction l as [|x l IH]; intros [|y r] L H; try discriminate; [reflexivity|]. cbn in L, H. apply andb_prop in H as [H1 H2].
  apply Z.eqb_eq in H1. cbn [fst snd] in H1. rewrite H1, (IH r) by (lia || assumption). reflexivity.
Qed.
Lemma pow2_bits_all : forallb pow2_bits_ok (seq 0 29) = true. Proof. vm_compute. reflexivity. Qed.
Lemma pow2_bits k : (k <= 28)%nat -> to_bits (L4 (2 ^ Z.of_nat k) 0 0 0) = repeat 0 (255 - k) ++ 1 :: repeat 0 k.
Proof.
  intros Hk. pose proof pow2_bits_all as H. rewrite forallb_forall in H. specialize (H k). rewrite in_seq in H. specialize (H ltac:(lia)).
  apply andb_prop in H as [H1 H2]. apply Nat.eqb_eq in H2. apply combine_eq; [|exact H1]. rewrite H2, app_length. cbn [length]. rewrite !repeat_length. lia.
Qed.
Lemma fpow_pow2 P m a x k : bn_field P m -> represents m a x -> (k <= 28)%nat -> fpow P a (2 ^ Z.of_nat k) = sq_code P k a.
Proof.
  intros F0 H Hk. apply represents_rep in H. pose proof (bn_ok P m F0) as OK. pose proof (bn_gt P m F0) as G. pose proof (rep_one P m OK) as R1.
  assert (S1 : fsquare P (fone P) = fone P).
  { rewrite (square_is_mul P m OK (fone P) 1 R1 (bn_one_no_drop P m F0)).
    pose proof (rep_mul P m OK _ _ _ _ R1 R1) as R. rewrite Z.mod_small in R by lia. apply (rep_inj m _ _ _ R R1). }
  assert (M1 : fmul P (fone P) a = a).
  { pose proof (rep_mul P m OK _ _ _ _ R1 H) as R. assert (0 <= x < m) by apply H.
    rewrite Z.mul_1_l, Z.mod_small in R by assumption. apply (rep_inj m _ _ _ R H). }
  unfold fpow, pow. assert (NZ : eqb4 (L4 (2 ^ Z.of_nat k) 0 0 0) zero4 = false).
  { destruct (eqb4 _ zero4) eqn:E; [|reflexivity]. apply eqb4_eq in E. injection E as E. pose proof (Z.pow_pos_nonneg 2 (Z.of_nat k)). lia. }
  rewrite NZ. clear NZ. destruct (eqb4 a zero4) eqn:E0.
  { apply eqb4_eq in E0. subst a. clear - F0. assert (S0 : fsquare P zero4 = zero4) by (destruct F0 as [[-> ->]|[-> ->]]; vm_compute; reflexivity).
    induction k as [|k IH]; [reflexivity|]. cbn [sq_code]. rewrite S0. exact IH. }
  rewrite (pow2_bits k Hk), fold_left_app. change (square ?b (fmod P) (finv P)) with (fsquare P b).
  set (f := fun acc bit => _).
  assert (Z : forall n b, fold_left f (repeat 0 n) b = sq_code P n b).
  { induction n as [|n IH]; intros b; [reflexivity|]. cbn [repeat fold_left]. rewrite IH. reflexivity. }
  assert (O : forall n, sq_code P n (fR P) = fR P) by (change (fR P) with (fone P); induction n as [|n IH]; [reflexivity|]; cbn [sq_code]; rewrite S1; exact IH).
  assert (C : forall b, fold_left f (1 :: repeat 0 k) b = sq_code P k (f b 1)) by (intros b; exact (Z k (f b 1))).
  assert (D : f (fR P) 1 = a) by (change (fR P) with (fone P); unfold f; cbv beta zeta; rewrite S1; exact M1).
  rewrite C, Z, O, D. reflexivity.
Qed.
Lemma sq_code_limbs n : forall a : F, lf_limbs R_MOD (s_squares F fr_sq n a) = sq_code fr n (lf_limbs R_MOD a).
Proof. induction n as [|n IH]; intros a; [reflexivity|]. exact (IH (fr_sq a)). Qed.
Lemma fr_pow_pow2 a k : (k <= 28)%nat -> fr_pow a (Z.of_nat (2 ^ k)) = s_squares F fr_sq k a.
Proof.
  intros Hk. apply lf_eq. rewrite sq_code_limbs. replace (Z.of_nat (2 ^ k)) with (2 ^ Z.of_nat k) by (rewrite Nat2Z.inj_pow; reflexivity).
  exact (fpow_pow2 fr R_MOD _ (fr_val a) k (or_introl (conj eq_refl eq_refl)) (proj2 (represents_rep _ _ _) (lf_rep fr R_MOD fr_ok a)) Hk).
Qed.
Lemma limb_fft_n k f : limb_fft k = Some f -> (k <= 28)%nat /\ fft_n f = (2 ^ k)%nat.
Proof.
  intros E. pose proof (g_range F fr_sq fr_invert _ _ _ k f E) as Hk. split; [exact (proj2 Hk)|].
  destruct (proj2 (C72_new k) Hk) as (f' & E' & N). rewrite E in E'. injection E' as <-. exact N.
Qed.
Section Cancel.
Variable K : Fld.
Add Field ccK : (kth K).
Lemma ksub_1_cancel (a b : K) : ksub a k1 = ksub b k1 -> a = b.
Proof. intros E. apply (k_cancel K (kopp k1)). transitivity (ksub a k1); [ring|]. rewrite E. ring. Qed.
End Cancel.
(** [z(tau)] is tau^n - 1 if none of the powers tau^(2^i), i < k, loses a carry; when none but perhaps the last one does,
    the last one decides. *)
Theorem C72_z_when_exact k f tau : limb_fft k = Some f -> (forall i, (i < k)%nat -> fr_lost (kpow tau (2 ^ i)) = false) ->
  limb_z f tau = ksub (kpow tau (2 ^ k)) k1.
Proof.
  intros E H. destruct (limb_fft_n k f E) as [Hk N]. unfold limb_z, s_fft_z. rewrite N, (fr_pow_pow2 tau k Hk), <- squares_pow.
  apply (f_equal (fun x => ksub x k1)), (s_squares_exact F fr_sq fr_lost fr_exact). intros i Hi. rewrite squares_pow. exact (H i Hi).
Qed.
Theorem C72_z_last k f tau : limb_fft (S k) = Some f -> (forall i, (i < k)%nat -> fr_lost (kpow tau (2 ^ i)) = false) ->
  (limb_z f tau = ksub (kpow tau (2 ^ S k)) k1 <-> fr_lost (kpow tau (2 ^ k)) = false).
Proof.
  intros E H. destruct (limb_fft_n _ f E) as [Hk N]. unfold limb_z, s_fft_z. rewrite N, (fr_pow_pow2 tau _ Hk), <- !squares_pow.
  rewrite <- (s_squares_last F fr_sq fr_lost fr_exact k tau) by (intros i Hi; rewrite squares_pow; exact (H i Hi)).
  split; [apply ksub_1_cancel|]. intros ->. reflexivity.
Qed.
(** There is a tau for which the vanishing polynomial of the domain of two points is evaluated wrongly. *)
Theorem C72_z_refuted : exists f tau, limb_fft 1 = Some f /\ limb_z f tau <> ksub (kpow tau (2 ^ 1)) k1.
Proof.
  destruct (proj2 (C72_new 1)) as (f & E & _); [unfold fr_two_adicity; lia|]. exists f, fr_bad. split; [exact E|]. intros X.
  apply (C72_z_last 0 f fr_bad E) in X; [|intros i Hi; lia]. assert (Y : kpow fr_bad (2 ^ 0) = fr_bad) by (rewrite <- squares_pow; reflexivity).
  rewrite Y, fr_bad_lost in X. discriminate X.
Qed.
(** The generator of the coset is raised to n without a loss, so [divide_by_z_on_coset] divides when its one inversion is exact. *)
Fixpoint squares_ok (P : fparams) (n : nat) (l : l4) : bool :=
  match n with O => true | S n => negb (drops_fast l) && squares_ok P n (fmul P l l) end.
Lemma squares_ok_all P n : forall l i, squares_ok P n l = true -> (i < n)%nat -> drops_carry (sq_limbs P i l) = false.
Proof.
  induction n as [|n IH]; intros l i H Hi; [lia|]. cbn [squares_ok] in H. apply andb_prop in H as [H1 H2]. apply negb_true_iff in H1. rewrite drops_fast_eq in H1.
  destruct i as [|i]; [exact H1|]. rewrite sq_limbs_S. apply IH; [exact H2|lia].
Qed.
Lemma gen_squares_ok : squares_ok fr 28 (ffrom_u64 fr 7) = true. Proof. vm_cast_no_check (eq_refl true). Qed.
Lemma gen_limbs : lf_limbs R_MOD fr_gen = ffrom_u64 fr 7.
Proof. apply (proj1 (eqb4_eq _ _)). vm_compute. reflexivity. Qed.
Lemma gen_tower i : (i < 28)%nat -> fr_lost (squares F i fr_gen) = false.
Proof.
  intros Hi. unfold fr_lost. rewrite squares_sqi. pose proof (sqi_limbs fr R_MOD fr_ok R_MOD_prime i fr_gen) as E. rewrite gen_limbs in E.
  exact (eq_trans (f_equal drops_carry E) (squares_ok_all fr 28 _ i gen_squares_ok Hi)).
Qed.
Theorem C72_divide_when_exact k f v : limb_fft k = Some f -> exact_inverse (ksub (kpow fr_gen (2 ^ k)) k1) ->
  exists q, limb_divide f v = Some q /\ length q = length v /\
  (forall i j, kmul (nth i q k0) (ksub (kpow (kmul fr_gen (kpow (fft_domain k) j)) (2 ^ k)) k1) = nth i v k0).
Proof.
  intros E A. destruct (limb_fft_n k f E) as [Hk N].
  destruct (g_dft F fr_sq fr_invert _ _ _ C27_scalar_field fr_none root_exact k f E) as (e & Ee & _).
  pose proof (g_range F fr_sq fr_invert _ _ _ k f E) as Hr.
  destruct (C27_vanishing F fr_two_adicity fr_root fr_gen C27_scalar_field k e Hr Ee) as (Z & _ & D).
  destruct (D v (C27_coset_disjoint k (proj2 Hr))) as (q & Q & L & V). exists q. split; [|split; [exact L|]].
  - rewrite <- Q. unfold limb_divide, s_divide_by_z_on_coset, divide_by_z_on_coset, s_z_on_coset, z_on_coset.
    assert (NE : fft_n e = (2 ^ k)%nat). { destruct (g_exact F _ _ _ C27_scalar_field k Hr) as (e' & E1 & E2). rewrite Ee in E1. injection E1 as ->. rewrite E2. reflexivity. }
    rewrite N, NE, (fr_pow_pow2 fr_gen k Hk), <- !squares_pow, (s_squares_exact F fr_sq fr_lost fr_exact) by (intros i Hi; apply gen_tower; lia).
    rewrite squares_pow, (inverse_exact _ A). reflexivity.
  - intros i j. pose proof (V i j) as X. rewrite Z in X. exact X.
Qed.

(** ** Cases that meet the hypotheses: the domain of two points. *)
Lemma inverse_checked x : 0 <= x < 2 ^ 64 -> cf_check fr (ffrom_u64 fr x) (flat_map word_bits_be (rev (limbs (L4 0x43e1f593efffffff 0x2833e84879b97091 0xb85045b68181585d 0x30644e72e131a029)))) (fone fr) = true ->
  carry_free R_MOD x (R_MOD - 2).
Proof.
  intros Hx H. pose (e := L4 0x43e1f593efffffff 0x2833e84879b97091 0xb85045b68181585d 0x30644e72e131a029).
  assert (We : wf e) by (unfold wf, word; rewrite Bval; vm_compute; intuition congruence).
  assert (Ve : val e = R_MOD - 2) by (rewrite R_MOD_val; unfold val; rewrite Bval; reflexivity).
  rewrite <- Ve, <- (vartime_bits_value e We).
  assert (R2 : rep R_MOD (ffrom_u64 fr x) (x mod R_MOD)) by (apply (from_u64_spec fr R_MOD fr_ok x); unfold word; rewrite Bval; lia).
  rewrite Z.mod_small in R2 by (split; [exact (proj1 Hx)|]; apply (Z.lt_trans _ (2 ^ 64)); [exact (proj2 Hx)|rewrite R_MOD_val; reflexivity]).
  apply (cf_check_sound fr R_MOD x _ fr_ok R2 one_no_drop_fr); [exact (vartime_bits_bit e)|exact H].
Qed.
Lemma val_minus_one : fr_val (fft_domain 1) = R_MOD - 1.
Proof. unfold fft_domain. rewrite <- squares_pow. apply (proj1 (Z.eqb_eq _ _)). vm_compute. reflexivity. Qed.
Lemma val_two : fr_val (kofnat (2 ^ 1)%nat) = 2. Proof. apply (proj1 (Z.eqb_eq _ _)). vm_compute. reflexivity. Qed.
Lemma val_gen : fr_val fr_gen = 7. Proof. apply (proj1 (Z.eqb_eq _ _)). vm_compute. reflexivity. Qed.
Lemma val_z : fr_val (ksub (kpow fr_gen (2 ^ 1)) k1) = 48. Proof. apply (proj1 (Z.eqb_eq _ _)). vm_compute. reflexivity. Qed.
Lemma gen_checked : carry_free R_MOD 7 (R_MOD - 2). Proof. apply inverse_checked; [lia|]. vm_cast_no_check (eq_refl true). Qed.
Lemma z_checked : carry_free R_MOD 48 (R_MOD - 2). Proof. apply inverse_checked; [lia|]. vm_cast_no_check (eq_refl true). Qed.
Example C72_example : (exists f, limb_fft 1 = Some f) /\ exact_inverse (fft_domain 1) /\ exact_inverse (kofnat (2 ^ 1)%nat) /\ exact_inverse fr_gen /\
  exact_inverse (ksub (kpow fr_gen (2 ^ 1)) k1) /\ (forall i, (i < 28)%nat -> fr_lost (kpow fr_gen (2 ^ i)) = false).
Proof.
  split; [destruct (proj2 (C72_new 1)) as (f & E & _); [unfold fr_two_adicity; lia|exists f; exact E]|].
  unfold exact_inverse. rewrite val_minus_one, val_two, val_gen, val_z.
  split; [apply (carry_free_minus_one fr R_MOD); [left; auto|vm_compute; reflexivity]|]. split; [exact C03_example|]. split; [exact gen_checked|]. split; [exact z_checked|].
  intros i Hi. rewrite <- squares_pow. exact (gen_tower i Hi).
Qed.
