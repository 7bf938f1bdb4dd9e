(** Property C68: the field macro on any modulus below [2^255], and its instance in zkstd/tests/jubjub.rs.
    Specification: MacroSpec.v, FieldSpec.v. *)
From Coq Require Import ZArith List Bool Lia Znumtheory Zdiv.
From Verif Require Import LimbModel LimbProofs MontProofs FieldModel FieldSpec FieldProofs DigitProofs PowProofs FieldMore Primes ClaimsField
  MacroSpec JubjubModel JubjubPrime.
Import ListNotations.
Local Open Scope Z_scope.

Lemma macro_ok P m : macro_parameters P m -> 1 < m < 2 ^ 255 -> params_ok P m.
Proof.
  intros [[W V] I [Wr Vr] [Wr2 Vr2] [Wr3 Vr3]] L.
  assert (P255 : 2 ^ 256 = 2 * 2 ^ 255) by reflexivity.
  rewrite limb_value_val in *. apply limbs_ok_wf in W, Wr, Wr2, Wr3.
  assert (E2 : B ^ 8 = 2 ^ 512) by (rewrite Bval; reflexivity). assert (E3 : B ^ 12 = 2 ^ 768) by (rewrite Bval; reflexivity).
  constructor; [constructor| | | |].
  - exact W.
  - rewrite Bval. change 18446744073709551616 with (2 ^ 64). apply Z.mod_divide in I; [|discriminate]. destruct I as [k I].
    apply Z.mod_divide; [discriminate|]. exists (k - (w1 (fmod P) + 2 ^ 64 * w2 (fmod P) + 2 ^ 128 * w3 (fmod P)) * finv P).
    rewrite <- V in I. unfold val in I. rewrite Bval in I.
    change (18446744073709551616 ^ 2) with (2 ^ 64 * 2 ^ 64) in I. change (18446744073709551616 ^ 3) with (2 ^ 64 * 2 ^ 128) in I.
    change 18446744073709551616 with (2 ^ 64) in I. change (2 ^ 128) with (2 ^ 64 * 2 ^ 64) in *. lia.
  - rewrite V, B4. lia.
  - lia.
  - exact V.
  - rewrite B4. auto.
  - rewrite E2. auto.
  - rewrite E3. auto.
Qed.

Section Any.
Variables (P : fparams) (m : Z).
Hypothesis MP : macro_parameters P m.
Hypothesis SZ : 1 < m < 2 ^ 255.
Let OK : params_ok P m := macro_ok P m MP SZ.

Theorem C68_representation :
  (forall a, reduced m a <-> exists c, represents m a c) /\
  (forall a c d, represents m a c -> represents m a d -> c = d) /\
  (forall c, 0 <= c < m -> exists a, represents m a c) /\
  (forall a b c, represents m a c -> represents m b c -> a = b).
Proof.
  repeat apply conj.
  - intros a. split.
    + intros [W L]. rewrite limb_value_val in L. exists (val (montgomery_reduce P a)). rp.
      apply (rep_exists P m OK); [apply limbs_ok_wf, W|exact L].
    + intros [c R]. rp. split; [apply limbs_ok_wf, (rep_wf m _ _ R)|]. rewrite limb_value_val. apply (rep_lt P m OK _ _ R).
  - intros a c d H1 H2. rp. apply (rep_fun P m OK a); assumption.
  - intros c Hc. exists (enc P c). rp. apply enc_rep; assumption.
  - intros a b c H1 H2. rp. apply (rep_inj m a b c); assumption.
Qed.
Theorem C68_ring_operations a b x y : represents m a x -> represents m b y ->
  represents m fzero 0 /\ represents m (fone P) 1 /\ represents m (fadd P a b) ((x + y) mod m) /\
  represents m (fsub P a b) ((x - y) mod m) /\ represents m (fneg P a) ((- x) mod m) /\
  represents m (fdouble P a) ((2 * x) mod m) /\ represents m (fmul P a b) ((x * y) mod m) /\
  feqb a b = (x =? y) /\ fis_zero a = (x =? 0).
Proof.
  intros H1 H2. rp.
  refine (conj (of_rep _ _ _ (rep_zero P m OK)) (conj (of_rep _ _ _ (rep_one P m OK)) (conj (of_rep _ _ _ _) (conj (of_rep _ _ _ _)
    (conj (of_rep _ _ _ _) (conj (of_rep _ _ _ _) (conj (of_rep _ _ _ _) (conj _ _)))))))).
  - apply rep_add; assumption. - apply rep_sub; assumption.
  - apply rep_neg; assumption. - apply rep_double; assumption. - apply rep_mul; assumption.
  - apply (rep_eqb P m OK a b x y); assumption. - apply (rep_is_zero P m OK a x); assumption.
Qed.
(** [square] is the product exactly on the elements whose limbs do not lose the carry; below [2^130] there are none that do. *)
Lemma small_no_drop a : limbs_ok a -> limb_value a < 2 ^ 130 -> drops_carry a = false.
Proof.
  intros (H0 & H1 & H2 & H3) L. unfold limb_ok, limb_value, drops_carry, cross_sum in *. destruct a as [a0 a1 a2 a3]. cbn [w0 w1 w2 w3] in *.
  assert (E3 : a3 = 0) by lia. assert (E2 : a2 < 4) by lia. subst a3. apply Z.leb_gt.
  assert (N1 : 0 <= a0 * a1 <= 2 ^ 128) by nia. assert (N2 : 0 <= a0 * a2 <= 2 ^ 66) by nia. assert (N3 : 0 <= a1 * a2 <= 2 ^ 66) by nia.
  rewrite Z.mod_small by lia. lia.
Qed.
Theorem C68_square a x : represents m a x ->
  (fsquare P a = fmul P a a <-> drops_carry a = false) /\
  (represents m (fsquare P a) ((x * x) mod m) <-> drops_carry a = false).
Proof.
  intros H. rp.
  assert (A : fsquare P a = fmul P a a <-> drops_carry a = false).
  { split; [|apply (square_is_mul P m OK a x H)]. intros E.
    destruct (Z_lt_le_dec m (2 ^ 130)) as [S|S].
    { apply small_no_drop; [apply limbs_ok_wf, (rep_wf m _ _ H)|]. rewrite limb_value_val. pose proof (rep_lt P m OK a x H). lia. }
    destruct (drops_carry a) eqn:D; [exfalso|reflexivity].
    pose proof (square_bad P m OK a x H D) as Q. rewrite E in Q.
    apply eqm_div in Q; [|lia]. destruct Q as [k Q]. rewrite Bval in Q.
    assert (0 < k < 1); [|lia]. change (2 ^ 130) with (4 * 18446744073709551616 ^ 2) in S. 
    change (18446744073709551616 ^ 2) with 340282366920938463463374607431768211456 in *. nia. }
  split; [exact A|]. rewrite <- A. pose proof (rep_mul P m OK a a x x H H) as Rm. split.
  - intros R. rp. apply (rep_inj m _ _ _ R Rm).
  - intros ->. rp. exact Rm.
Qed.
(** Conversions: integers, limbs, wide bytes, random draws. *)
Theorem C68_conversions :
  (forall v, 0 <= v < 2 ^ 64 -> represents m (ffrom_u64 P v) (v mod m)) /\
  (forall v, limbs_ok v -> represents m (fto_mont_form P v) (limb_value v mod m)) /\
  (forall bs, length bs = 64%nat -> Forall is_byte bs ->
     represents m (from_bytes_wide P bs) (le_value bs mod m) /\ represents m (from_hash P bs) (le_value bs mod m)) /\
  (forall r0 r1 r2 r3 r4 r5 r6 r7, Forall limb_ok [r0; r1; r2; r3; r4; r5; r6; r7] ->
     represents m (frandom P r0 r1 r2 r3 r4 r5 r6 r7)
       ((limb_value (L4 r0 r1 r2 r3) + 2 ^ 256 * limb_value (L4 r4 r5 r6 r7)) mod m)).
Proof.
  split; [|split; [|split]].
  - intros v Hv. rp. apply (from_u64_spec P m OK), word_of_range, Hv.
  - intros v Hv. rp. rewrite limb_value_val. apply (rep_to_mont P m OK), limbs_ok_wf, Hv.
  - intros bs L H. rewrite Forall_forall in H. rewrite lev_le.
    split; rp; [|rewrite from_hash_wide]; apply (from_bytes_wide_spec P m OK); assumption.
  - intros r0 r1 r2 r3 r4 r5 r6 r7 H. rewrite Forall_forall in H. rp. rewrite (limb_value_val (L4 r0 r1 r2 r3)), (limb_value_val (L4 r4 r5 r6 r7)).
    pose proof (rep_from_u512 P m OK (L8 r0 r1 r2 r3 r4 r5 r6 r7)) as R.
    replace (val (L4 r0 r1 r2 r3) + 2 ^ 256 * val (L4 r4 r5 r6 r7)) with (val8 (L8 r0 r1 r2 r3 r4 r5 r6 r7)).
    + apply R. unfold wf8; cbn [v0 v1 v2 v3 v4 v5 v6 v7]. repeat split; apply H; cbn; tauto.
    + unfold val8, val; cbn [v0 v1 v2 v3 v4 v5 v6 v7 w0 w1 w2 w3]. rewrite <- B4. rewrite Bval. ring.
Qed.
(** Bytes: [to_bytes] writes the residue, [from_bytes] reads every residue below [m] and rejects every other string. *)
Theorem C68_bytes :
  (forall a x, represents m a x -> length (to_bytes P a) = 32%nat /\ Forall is_byte (to_bytes P a) /\ le_value (to_bytes P a) = x) /\
  (forall bs, length bs = 32%nat -> Forall is_byte bs ->
     (le_value bs < m -> exists a, from_bytes P bs = Some a /\ represents m a (le_value bs)) /\
     (m <= le_value bs -> from_bytes P bs = None)).
Proof.
  split.
  - intros a x H. rp. destruct (to_bytes_spec P m OK a x H) as (A & C & D). rewrite Forall_forall. rewrite lev_le. auto.
  - intros bs L H. rewrite Forall_forall in H. destruct (from_bytes_spec P m OK bs L H) as [A C].
    rewrite lev_le. split; [|exact C]. intros Hl. destruct (A Hl) as (a & E & R). exists a. rp. auto.
Qed.
(** Digits: bits, base-4 digits and the signed digits, and the comparison. *)
Theorem C68_digits a x : represents m a x ->
  (length (fto_bits P a) = 256%nat /\ Forall (fun b => b = 0 \/ b = 1) (fto_bits P a) /\ be_value 2 (fto_bits P a) = x) /\
  (Forall (fun d => 0 <= d < 4) (to_costomized_repr P a) /\ be_value 4 (to_costomized_repr P a) = x /\ hd 1 (to_costomized_repr P a) <> 0) /\
  (exists ds, fto_nafs P a = Some ds /\ be_value 2 (map naf_val ds) = x /\ non_adjacent ds /\ hd NPlus ds <> NZero) /\
  is_odd P a = Z.odd x.
Proof.
  intros H. rp. pose proof (reduce_wf P m OK a (rep_wf m _ _ H)) as W. pose proof (rep_reduce P m OK a x H) as V.
  split; [|split; [|split]].
  - unfold fto_bits. split; [apply to_bits_length|]. split; [apply Forall_forall; intros d; apply to_bits_bit|].
    rewrite to_bits_value by exact W. exact V.
  - unfold to_costomized_repr. split; [|split].
    + apply Forall_forall. intros d Hd. apply skip_while_in, in_rev, in_flat_map in Hd as (l & _ & Hd).
      apply in_flat_map in Hd as (y & _ & Hd). rewrite byte_quads_digits in Hd. apply digits_range in Hd; lia.
    + rewrite quads_value by exact W. exact V.
    + destruct (skip_while _ _) eqn:E; [discriminate|]. exact (skip_zero_head _ _ _ E).
  - destruct (to_nafs_spec _ W) as (ds & E & Vd & N & Hd). exists ds. split; [exact E|].
    split; [rewrite Vd; exact V|]. split; [exact N|]. destruct ds; [discriminate|exact Hd].
  - unfold is_odd. rewrite <- V. unfold val. set (r := montgomery_reduce P a). 
    rewrite !Z.odd_add, !Z.odd_mul, Bval, !(Z.odd_pow 18446744073709551616) by lia. change (Z.odd 18446744073709551616) with false. cbn [andb].
    rewrite !xorb_false_r. pose proof (Zmod_odd (w0 r)) as O. rewrite ?O. destruct (Z.odd (w0 r)); reflexivity.
Qed.
Theorem C68_order a b x y : represents m a x -> represents m b y ->
  fcmp a b = ((x * 2 ^ 256) mod m ?= (y * 2 ^ 256) mod m) /\ (fcmp a b = Eq <-> x = y).
Proof.
  intros H1 H2. rp.
  assert (E : fcmp a b = ((x * 2 ^ 256) mod m ?= (y * 2 ^ 256) mod m)).
  { pose proof H1 as (Wu & _ & Eu). pose proof H2 as (Wv & _ & Ev). rewrite cmp_lex_limbs, Eu, Ev, B4 by assumption. reflexivity. }
  split; [exact E|]. rewrite E, Z.compare_eq_iff. rewrite <- B4. split; [|intros ->; reflexivity].
  intros Q. apply (cancel_B4 P m OK) in Q. rewrite !Z.mod_small in Q; [exact Q|apply H2|apply H1].
Qed.
(** Powers, and for a prime modulus inverses and quotients, when no square loses a carry. *)
Theorem C68_pow_when_exact a x e : represents m a x -> 0 <= e < 2 ^ 64 -> carry_free m x e -> represents m (fpow P a e) (x ^ e mod m).
Proof. intros H He CF. rp. apply (fpow_spec P m OK); auto using word_of_range. Qed.
Theorem C68_invert_when_exact a x : prime m -> represents m a x ->
  (finvert P a = None <-> x = 0) /\
  (x <> 0 -> carry_free m x (m - 2) ->
   exists i y, finvert P a = Some i /\ represents m i y /\ (x * y) mod m = 1 /\ fmul P a i = fone P).
Proof.
  intros PR H. rp. split; [split; [apply (invert_none P m OK a x H)|intros ->; apply (invert_zero P m OK a H)]|].
  intros Hx CF. destruct (invert_spec P m OK PR a x H Hx CF) as (i & y & E & Ri & V).
  exists i, y. split; [exact E|]. split; [rp; exact Ri|]. split; [exact V|].
  apply (rep_inj m _ _ 1); [|apply (rep_one P m OK)]. rewrite <- V. apply rep_mul; assumption.
Qed.
End Any.

(** ** The instance of zkstd/tests/jubjub.rs. *)
Theorem C68_bls_instance : macro_parameters bls BLS_MOD /\ 1 < BLS_MOD < 2 ^ 255 /\ prime BLS_MOD.
Proof.
  split; [|split; [split; reflexivity|exact BLS_prime]].
  constructor; unfold limbs_ok, limb_ok; vm_compute; intuition congruence.
Qed.
Lemma bls_ok : params_ok bls BLS_MOD.
Proof. destruct C68_bls_instance as (A & S & _). exact (macro_ok _ _ A S). Qed.
(** Its generator is 7, not a square; its root of unity is [7^((m-1)/2^32)], of order exactly [2^32]. *)
Definition bls_w : Z := 0x16a2a19edfe81f20d09b681922c813b4b63683508c2280b93829971f439f0d2b.
Lemma bls_w_pow : 7 ^ ((BLS_MOD - 1) / 2 ^ 32) mod BLS_MOD = bls_w.
Proof.
  change ((BLS_MOD - 1) / 2 ^ 32) with (Zpos 12208678567578594777604504606729831043093128246378069236549469339647).
  rewrite <- (fastpow_spec BLS_MOD eq_refl eq_refl 7). vm_compute. reflexivity.
Qed.
Lemma bls_w_31 : bls_w ^ (2 ^ 31) mod BLS_MOD = BLS_MOD - 1.
Proof. rewrite <- powmod_spec by (reflexivity || discriminate). vm_compute. reflexivity. Qed.
Theorem C68_bls_constants :
  represents BLS_MOD bls_generator 7 /\ (forall s, (s * s) mod BLS_MOD <> 7) /\
  represents BLS_MOD bls_root (7 ^ ((BLS_MOD - 1) / 2 ^ bls_s) mod BLS_MOD) /\
  (forall k, 0 <= k -> (7 ^ ((BLS_MOD - 1) / 2 ^ bls_s) mod BLS_MOD) ^ k mod BLS_MOD = 1 <-> (2 ^ bls_s | k)).
Proof.
  pose proof BLS_prime as PR. assert (M1 : 1 < BLS_MOD) by reflexivity. assert (M0 : 0 < BLS_MOD) by reflexivity.
  split; [split; [unfold limbs_ok, limb_ok; vm_compute; intuition congruence|]; split; [split; [discriminate|reflexivity]|vm_compute; reflexivity]|].
  split.
  { intros s E. apply (not_square BLS_MOD 7 PR eq_refl eq_refl ltac:(discriminate)) with (s := s); [|exact E].
    replace ((BLS_MOD - 1) / 2) with ((BLS_MOD - 1) / 2 ^ 32 * 2 ^ 31) by reflexivity.
    rewrite Z.pow_mul_r by (vm_compute; discriminate). rewrite <- pow_mod_idem, bls_w_pow, bls_w_31 by (reflexivity || discriminate). discriminate. }
  unfold bls_s. rewrite bls_w_pow.
  split; [split; [unfold limbs_ok, limb_ok; vm_compute; intuition congruence|]; split; [split; [discriminate|reflexivity]|vm_compute; reflexivity]|].
  intros k Hk. pose proof bls_w_31 as W31. set (w := bls_w) in *.
  assert (W32 : w ^ (2 ^ 32) mod BLS_MOD = 1 mod BLS_MOD).
  { change (2 ^ 32) with (2 * 2 ^ 31). rewrite Z.mul_comm, Z.pow_mul_r, <- pow_mod_idem, W31 by (reflexivity || discriminate). reflexivity. }
  split.
  - intros E. assert (NW : ~ (BLS_MOD | w)) by (intros D; apply Z.mod_divide in D; [vm_compute in D|]; discriminate).
    assert (E' : w ^ k mod BLS_MOD = 1 mod BLS_MOD) by exact E.
    pose proof (pow_gcd_1 BLS_MOD w (2 ^ 32) k PR NW ltac:(discriminate) Hk W32 E') as G.
    destruct (prime_power_dichotomy 2 _ prime_2 32 ltac:(discriminate) (Z.gcd_divide_l (2 ^ 32) k)) as [[j D]|D].
    + exfalso. change (2 ^ (32 - 1)) with (2 ^ 31) in D. assert (J : 0 <= j). { destruct (Z_lt_le_dec j 0) as [J|J]; [|exact J]. exfalso. apply (Z.lt_irrefl 0), (Z.lt_le_trans _ (2 ^ 31)); [reflexivity|]. rewrite D. apply Z.mul_nonpos_nonneg; [apply Z.lt_le_incl, J|apply Z.gcd_nonneg]. }
      rewrite D, Z.mul_comm, Z.pow_mul_r in W31 by (try apply Z.gcd_nonneg; exact J).
      rewrite (pow_mod_1 _ _ j M1 G J) in W31. clear - W31. vm_compute in W31. discriminate W31.
    + eapply Z.divide_trans; [exact D|apply Z.gcd_divide_r].
  - intros [j ->]. assert (J : 0 <= j) by (apply (Z.mul_le_mono_pos_r _ _ (2 ^ 32)); [reflexivity|exact Hk]).
    assert (J2 : 0 <= 2 ^ 32) by discriminate. rewrite (Z.mul_comm j (2 ^ 32)), (Z.pow_mul_r w _ _ J2 J). exact (pow_mod_1 _ _ j M1 W32 J).
Qed.

(** ** The size condition cannot be dropped: with the 256-bit modulus [2^256 - 2^32 - 977] and its own constants the sum of two elements
    is wrong. *)
Definition big_params : fparams := {|
  fmod := L4 0xfffffffefffffc2f 0xffffffffffffffff 0xffffffffffffffff 0xffffffffffffffff;
  finv := 0xd838091dd2253531;
  fR := L4 0x1000003d1 0 0 0; fR2 := L4 0x7a2000e90a1 1 0 0; fR3 := L4 0x2bb1e33795f671 0x100000b73 0 0 |}.
Theorem C68_size_refuted : exists P m a x, macro_parameters P m /\ 1 < m < 2 ^ 256 /\ represents m a x /\
  ~ represents m (fadd P a a) ((x + x) mod m) /\ ~ represents m (fdouble P a) ((2 * x) mod m).
Proof.
  exists big_params, (2 ^ 256 - 2 ^ 32 - 977), (L4 0xfffffffefffffc2e 0xffffffffffffffff 0xffffffffffffffff 0xffffffffffffffff),
    0x3642e6faeaac7c6663b93d3d6a0d489e434ddc0123db5fa627c7f6e1f797e305.
  split; [constructor; unfold limbs_ok, limb_ok; vm_compute; intuition congruence|]. split; [split; reflexivity|].
  split; [split; [unfold limbs_ok, limb_ok; vm_compute; intuition congruence|]; split; [split; [discriminate|reflexivity]|vm_compute; reflexivity]|].
  split; intros (_ & _ & E); vm_compute in E; discriminate.
Qed.
