(** C61: the six-limb (384-bit) arithmetic functions. *)
From Coq Require Import ZArith List Bool Lia Znumtheory.
From Verif Require Import LimbModel LimbProofs FieldModel FieldSpec Primes Limb6Model Limb6Spec Limb6Proofs Limb6Square Limb6Field.
Import ListNotations.
Local Open Scope Z_scope.

Lemma B12 : B ^ 12 = 2 ^ 768. Proof. rewrite Bval. reflexivity. Qed.
Lemma B18 : B ^ 18 = 2 ^ 1152. Proof. rewrite Bval. reflexivity. Qed.

(** The constants of the tests of this layer (zkstd/tests/jubjub.rs:433-460): the BLS12-381 base field. *)
Definition BLS_P : limb6 := M6 0xb9feffffffffaaab 0x1eabfffeb153ffff 0x6730d2a0f6b0f624 0x64774b84f38512bf 0x4b1ba7b6434bacd7 0x1a0111ea397fe69a.
Definition BLS_INV : Z := 0x89f3fffcfffcfffd.
Definition BLS_R2 : limb6 := M6 0xf4df1f341c341746 0x0a76e6a609d104f1 0x8de5476c4c95b6d5 0x67eb88a9939d83c0 0x9a793e85b519952d 0x11988fe592cae3aa.
Definition BLS_R3 : limb6 := M6 0xed48ac6bd94ca1e0 0x315f831e03a7adf8 0x9a53352a615e29dd 0x34c04e5e921e1761 0x2512d43565724728 0x0aa6346091755d4d.
Definition BLS_ONE : limb6 := M6 0x760900000002fffd 0xebf4000bc40c0002 0x5f48985753c758ba 0x77ce585370525745 0x5c071a97a256ec6d 0x15f65ec3fa80e493.
Definition bls_m : Z := 0x1a0111ea397fe69a4b1ba7b6434bacd764774b84f38512bf6730d2a0f6b0f6241eabfffeb153ffffb9feffffffffaaab.
(** A prime of our own choice for the inverses: the order of the BN254 group, in six limbs. *)
Definition R6_P : limb6 := M6 0x43e1f593f0000001 0x2833e84879b97091 0xb85045b68181585d 0x30644e72e131a029 0 0.
Definition R6_INV : Z := 0xc2e1f593efffffff.
Definition R6_ONE : limb6 := M6 0xb075da81ef8cfeb9 0xa7f12acca5b6cd8c 0x32c475047957bf7b 0x03d581d748ffa25e 0 0.

Definition modulus6_b (p : limb6) (inv : Z) : bool :=
  (1 <? limb_value6 p) && (2 * limb_value6 p <? 2 ^ 384) && ((u0 p * inv + 1) mod 2 ^ 64 =? 0).
Lemma modulus6_check p inv : limbs_ok6 p -> modulus6_b p inv = true -> modulus6 p inv.
Proof.
  intros W H. unfold modulus6_b in H. rewrite !andb_true_iff in H. destruct H as ((A & C) & D).
  apply Z.ltb_lt in A, C. apply Z.eqb_eq in D. unfold modulus6. auto.
Qed.
Ltac limbs6_ok := repeat apply conj; try (apply Z.leb_le; reflexivity); try (apply Z.ltb_lt; reflexivity).
Example bls_modulus : modulus6 BLS_P BLS_INV /\ limb_value6 BLS_P = bls_m.
Proof.
  split; [|apply Z.eqb_eq; vm_compute; reflexivity]. apply modulus6_check; [unfold limbs_ok6, limb_ok; limbs6_ok|vm_compute; reflexivity].
Qed.
Example r6_modulus : modulus6 R6_P R6_INV /\ prime (limb_value6 R6_P).
Proof.
  split; [apply modulus6_check; [unfold limbs_ok6, limb_ok; limbs6_ok|vm_compute; reflexivity]|].
  replace (limb_value6 R6_P) with 21888242871839275222246405745257275088548364400416034343698204186575808495617 by (apply Z.eqb_eq; vm_compute; reflexivity).
  exact prime_bn254_r.
Qed.
Lemma rep6_check m a c : limbs_ok6 a -> (0 <=? c) && (c <? m) && (limb_value6 a =? (c * 2 ^ 384) mod m) = true -> represents6 m a c.
Proof.
  intros W H. rewrite !andb_true_iff in H. destruct H as ((A & C) & D). apply Z.leb_le in A. apply Z.ltb_lt in C. apply Z.eqb_eq in D.
  unfold represents6. auto.
Qed.

Section C61.
Variables (p : limb6) (inv : Z).
Hypothesis M : modulus6 p inv.
Let m := limb_value6 p.
Let OK : mod_ok6 p inv := proj1 (modulus6_ok p inv) M.
Let Hm : val6 p = m := eq_sym (limb_value6_val p).

(** C61: every reduced vector stands for exactly one residue, and every residue has exactly one vector. *)
Theorem C61_representation :
  (forall a, reduced6 m a -> exists c, represents6 m a c /\ forall d, represents6 m a d -> d = c) /\
  (forall c, 0 <= c < m -> exists a, represents6 m a c /\ forall b, represents6 m b c -> b = a).
Proof.
  split.
  - intros a [W L]. rewrite limb_value6_val in L. apply limbs_ok6_wf in W. destruct (rep6_exists p inv m OK Hm a W L) as [c R].
    exists c. split; [apply represents6_rep, R|]. intros d D. apply represents6_rep in D. exact (rep6_fun p inv m OK Hm a d c D R).
  - intros c Hc. destruct (rep6_of p inv m OK Hm c Hc) as [a R]. exists a. split; [apply represents6_rep, R|].
    intros b D. apply represents6_rep in D. exact (rep6_inj m b a c D R).
Qed.

(** C61: addition, subtraction, doubling, negation and multiplication are those of the residues, with reduced results. *)
Theorem C61_ring_ops a b x y : represents6 m a x -> represents6 m b y ->
  represents6 m (add6 a b p) ((x + y) mod m) /\ represents6 m (sub6 a b p) ((x - y) mod m) /\
  represents6 m (double6 a p) ((2 * x) mod m) /\ represents6 m (neg6 a p) ((- x) mod m) /\
  represents6 m (mul6 a b p inv) ((x * y) mod m).
Proof.
  rewrite !represents6_rep. intros Ra Rb. split; [|split; [|split; [|split]]].
  - exact (rep6_add p inv m OK Hm a b x y Ra Rb).
  - exact (rep6_sub p inv m OK Hm a b x y Ra Rb).
  - exact (rep6_double p inv m OK Hm a x Ra).
  - exact (rep6_neg p inv m OK Hm a x Ra).
  - exact (rep6_mul p inv m OK Hm a b x y Ra Rb).
Qed.

(** C61: [square] agrees with [mul] exactly on the inputs that lose neither carry. *)
Theorem C61_square_iff a x : 2 ^ 128 + 1 < m -> represents6 m a x ->
  (square6 a p inv = mul6 a a p inv <-> drops_high a = false /\ drops_low a = false).
Proof.
  intros G R. apply represents6_rep in R. apply (square6_iff p inv m OK Hm a x); [|exact R].
  replace (B ^ 2) with (2 ^ 128) by (rewrite Bval; reflexivity). exact G.
Qed.
Theorem C61_square_when_exact a x : represents6 m a x -> drops_high a = false -> drops_low a = false ->
  represents6 m (square6 a p inv) ((x * x) mod m).
Proof. rewrite !represents6_rep. intros R D1 D2. exact (rep6_square p inv m OK Hm a x R D1 D2). Qed.

(** C61: zero. *)
Theorem C61_zero : represents6 m zero6 0.
Proof. apply represents6_rep. exact (rep6_zero p inv m OK Hm). Qed.

Section Consts.
Variables r2 r3 : limb6.
Hypothesis H2 : limbs_ok6 r2 /\ limb_value6 r2 = 2 ^ 768 mod m.
Hypothesis H3 : limbs_ok6 r3 /\ limb_value6 r3 = 2 ^ 1152 mod m.
Lemma h2 : wf6 r2 /\ val6 r2 = B ^ 12 mod m.
Proof. rewrite <- limbs_ok6_wf, <- limb_value6_val, B12. exact H2. Qed.
Lemma h3 : wf6 r3 /\ val6 r3 = B ^ 18 mod m.
Proof. rewrite <- limbs_ok6_wf, <- limb_value6_val, B18. exact H3. Qed.

(** C61: conversions of integers of any size up to 768 bits give the residue of that integer. *)
Theorem C61_conversions :
  (forall v, limbs_ok6 v -> represents6 m (to_mont_form6 v r2 p inv) (limb_value6 v mod m)) /\
  represents6 m (one6 r2 p inv) 1 /\
  (forall v, 0 <= v < 2 ^ 64 -> represents6 m (from_u64_6 v r2 p inv) (v mod m)) /\
  (forall l, limbs_ok12 l -> represents6 m (from_u512_6 l r2 r3 p inv) (limb_value12 l mod m)).
Proof.
  pose proof (gt1 p inv m OK Hm) as G. split; [|split; [|split]].
  - intros v W. apply represents6_rep. rewrite limb_value6_val. apply limbs_ok6_wf in W. exact (rep6_to_mont p inv m OK Hm r2 h2 v W).
  - apply represents6_rep. destruct (u64_limbs6 1) as [W E]; [unfold word; rewrite Bval; lia|].
    pose proof (rep6_to_mont p inv m OK Hm r2 h2 _ W) as R. rewrite E, Z.mod_1_l in R by exact G. exact R.
  - intros v Hv. apply represents6_rep. destruct (u64_limbs6 v) as [W E]; [unfold word; rewrite Bval; change (2 ^ 64) with 18446744073709551616 in Hv; lia|].
    pose proof (rep6_to_mont p inv m OK Hm r2 h2 _ W) as R. rewrite E in R. exact R.
  - intros l W. apply represents6_rep. rewrite limb_value12_val. apply limbs_ok12_wf in W.
    exact (rep6_from_u512 p inv m OK Hm r2 r3 h2 h3 l W).
Qed.
End Consts.

(** C61: powers and inverses, when no squaring on the way loses a carry. *)
Theorem C61_pow_when_exact one a b x : represents6 m one 1 -> represents6 m a x -> limbs_ok6 b -> carry_free6 m x (limb_value6 b) ->
  represents6 m (pow6 a b one p inv) (x ^ limb_value6 b mod m).
Proof.
  rewrite !represents6_rep, limb_value6_val. intros R1 R W C. apply limbs_ok6_wf in W.
  exact (pow6_spec p inv m OK Hm one R1 a b x R W C).
Qed.
Theorem C61_invert_when_exact one a x : prime m -> represents6 m one 1 -> represents6 m a x -> x <> 0 -> carry_free6 m x (m - 2) ->
  exists i y, invert6 a (little_fermat6 p) one p inv = Some i /\ represents6 m i y /\ (x * y) mod m = 1.
Proof.
  rewrite !represents6_rep. intros PR R1 R N C.
  destruct (invert6_spec p inv m OK Hm one R1 a x PR R N C) as (i & y & E & Ri & V). exists i, y.
  split; [exact E|]. split; [apply represents6_rep; exact Ri|exact V].
Qed.
Theorem C61_invert_none one a x : represents6 m one 1 -> represents6 m a x -> (invert6 a (little_fermat6 p) one p inv = None <-> x = 0).
Proof.
  rewrite !represents6_rep. intros R1 R. unfold invert6. pose proof (rep6_zero p inv m OK Hm) as Z0. destruct (eqb6 a zero6) eqn:E.
  - apply eqb6_eq in E. subst a. split; [intros _; exact (rep6_fun p inv m OK Hm _ _ _ R Z0)|reflexivity].
  - split; [discriminate|]. intros ->. rewrite (rep6_inj m _ _ _ R Z0) in E. discriminate.
Qed.
(** C61: the exponent of the inverse is the modulus minus two. *)
Theorem C61_little_fermat : limbs_ok6 (little_fermat6 p) /\ limb_value6 (little_fermat6 p) = m - 2.
Proof.
  rewrite limbs_ok6_wf, limb_value6_val. pose proof (gt1 p inv m OK Hm). exact (little_fermat6_spec p inv m OK Hm ltac:(lia)).
Qed.
End C61.

(** C61: [to_bits] is the integer of the limbs in 384 binary digits, most significant first; [to_nafs] is the same
    integer in signed digits, no two adjacent ones nonzero, least significant first, the last one nonzero. *)
Theorem C61_bits a : limbs_ok6 a ->
  length (to_bits6 a) = 384%nat /\ (forall d, In d (to_bits6 a) -> d = 0 \/ d = 1) /\ be_value 2 (to_bits6 a) = limb_value6 a.
Proof.
  intros W. apply limbs_ok6_wf in W. split; [unfold to_bits6; rewrite rev_length; apply le_bits6_length|].
  split; [apply to_bits6_bit|]. rewrite limb_value6_val. apply to_bits6_value, W.
Qed.
Theorem C61_nafs a : limbs_ok6 a -> exists ds, to_nafs6 a = Some ds /\ be_value 2 (map naf_val (rev ds)) = limb_value6 a /\
  non_adjacent ds /\ (match rev ds with d :: _ => d <> NZero | [] => True end).
Proof. intros W. apply limbs_ok6_wf in W. rewrite limb_value6_val. exact (to_nafs6_spec a W). Qed.

(** C61: for the modulus of the tests, both losses happen: on these reduced inputs [square] and [mul] differ. *)
Theorem C61_square_refuted :
  exists a b, reduced6 bls_m a /\ reduced6 bls_m b /\
    drops_high a = true /\ drops_low a = false /\ square6 a BLS_P BLS_INV <> mul6 a a BLS_P BLS_INV /\
    drops_high b = false /\ drops_low b = true /\ square6 b BLS_P BLS_INV <> mul6 b b BLS_P BLS_INV.
Proof.
  set (W := 0xffffffffffffffff).
  assert (A : reduced6 bls_m (M6 0 0 0 W W 1)) by (split; [unfold limbs_ok6, limb_ok; limbs6_ok|apply Z.ltb_lt; vm_compute; reflexivity]).
  assert (C : reduced6 bls_m (M6 0 0 W W 1 0)) by (split; [unfold limbs_ok6, limb_ok; limbs6_ok|apply Z.ltb_lt; vm_compute; reflexivity]).
  destruct bls_modulus as [OK E]. pose proof (C61_representation BLS_P BLS_INV OK) as [RP _]. rewrite E in RP.
  assert (G : 2 ^ 128 + 1 < limb_value6 BLS_P) by (rewrite E; apply Z.ltb_lt; vm_compute; reflexivity).
  destruct (RP _ A) as (x & Rx & _), (RP _ C) as (y & Ry & _). rewrite <- E in Rx, Ry.
  exists (M6 0 0 0 W W 1), (M6 0 0 W W 1 0). split; [exact A|]. split; [exact C|].
  assert (D1 : drops_high (M6 0 0 0 W W 1) = true) by (vm_compute; reflexivity).
  assert (D2 : drops_low (M6 0 0 W W 1 0) = true) by (vm_compute; reflexivity).
  split; [exact D1|]. split; [vm_compute; reflexivity|]. split.
  - intros S. apply (C61_square_iff BLS_P BLS_INV OK _ x G Rx) in S. destruct S as [S _]. rewrite D1 in S. discriminate S.
  - split; [vm_compute; reflexivity|]. split; [exact D2|].
    intros S. apply (C61_square_iff BLS_P BLS_INV OK _ y G Ry) in S. destruct S as [_ S]. rewrite D2 in S. discriminate S.
Qed.

(** Witnesses. *)
Example C61_consts : (limbs_ok6 BLS_R2 /\ limb_value6 BLS_R2 = 2 ^ 768 mod limb_value6 BLS_P) /\
  (limbs_ok6 BLS_R3 /\ limb_value6 BLS_R3 = 2 ^ 1152 mod limb_value6 BLS_P) /\ represents6 (limb_value6 BLS_P) BLS_ONE 1.
Proof.
  split; [split; [unfold limbs_ok6, limb_ok; limbs6_ok|apply Z.eqb_eq; vm_compute; reflexivity]|].
  split; [split; [unfold limbs_ok6, limb_ok; limbs6_ok|apply Z.eqb_eq; vm_compute; reflexivity]|].
  apply rep6_check; [unfold limbs_ok6, limb_ok; limbs6_ok|vm_compute; reflexivity].
Qed.
(** Two to the fifth: the accumulators are 1, 2 and 4, in Montgomery form. *)
Example C61_pow_case : carry_free6 (limb_value6 BLS_P) 2 5.
Proof.
  intros j a Hj R.
  assert (C : 5 / 2 ^ j = 2 \/ 5 / 2 ^ j = 1 \/ 5 / 2 ^ j = 0).
  { destruct (Z.eq_dec j 1) as [->|]; [left; reflexivity|]. destruct (Z.eq_dec j 2) as [->|]; [right; left; reflexivity|].
    right; right. apply Z.div_small. split; [lia|]. apply Z.lt_le_trans with (2 ^ 3); [lia|]. apply Z.pow_le_mono_r; lia. }
  destruct R as (W & _ & E).
  assert (U : exists k, In k [4; 2; 1] /\ limb_value6 a = (k * 2 ^ 384) mod limb_value6 BLS_P).
  { destruct C as [Q|[Q|Q]]; rewrite Q in E; [exists 4|exists 2|exists 1]; (split; [cbn; tauto|]); rewrite E; apply Z.eqb_eq; vm_compute; reflexivity. }
  clear - W U. destruct U as (k & K & E). apply limbs_ok6_wf in W. rewrite limb_value6_val in E.
  assert (X : forall b, limbs_ok6 b -> drops_high b = false -> drops_low b = false -> limb_value6 b = (k * 2 ^ 384) mod limb_value6 BLS_P -> drops_high a = false /\ drops_low a = false).
  { intros b Wb D1 D2 Eb. replace a with b; [auto|]. apply limbs_ok6_wf in Wb. rewrite limb_value6_val in Eb. apply val6_inj; [exact Wb|exact W|congruence]. }
  destruct K as [<-|[<-|[<-|[]]]].
  - apply (X (add6 (add6 BLS_ONE BLS_ONE BLS_P) (add6 BLS_ONE BLS_ONE BLS_P) BLS_P));
      [vm_compute; repeat split; discriminate|vm_compute; reflexivity|vm_compute; reflexivity|apply Z.eqb_eq; vm_compute; reflexivity].
  - apply (X (add6 BLS_ONE BLS_ONE BLS_P));
      [vm_compute; repeat split; discriminate|vm_compute; reflexivity|vm_compute; reflexivity|apply Z.eqb_eq; vm_compute; reflexivity].
  - apply (X BLS_ONE);
      [vm_compute; repeat split; discriminate|vm_compute; reflexivity|vm_compute; reflexivity|apply Z.eqb_eq; vm_compute; reflexivity].
Qed.
(** Minus one in the field of [R6_P]: all accumulators are one or minus one. *)
Example C61_invert_case : let m := limb_value6 R6_P in represents6 m (neg6 R6_ONE R6_P) (m - 1) /\ represents6 m R6_ONE 1 /\ carry_free6 m (m - 1) (m - 2).
Proof.
  intros m. assert (RN : represents6 m (neg6 R6_ONE R6_P) (m - 1)).
  { apply rep6_check; [vm_compute; repeat split; discriminate|vm_compute; reflexivity]. }
  assert (R1 : represents6 m R6_ONE 1).
  { apply rep6_check; [vm_compute; repeat split; discriminate|vm_compute; reflexivity]. }
  split; [exact RN|]. split; [exact R1|]. intros j a Hj R.
  assert (M1 : 1 < m) by (apply Z.ltb_lt; vm_compute; reflexivity).
  assert (K : forall k, 0 <= k -> (m - 1) ^ k mod m = 1 \/ (m - 1) ^ k mod m = m - 1).
  { clear - M1. clearbody m. apply natlike_ind; [left; rewrite Z.pow_0_r; apply Z.mod_1_l, M1|].
    intros k Hk [E|E]; rewrite Z.pow_succ_r by exact Hk; rewrite <- Z.mul_mod_idemp_r, E by lia.
    - right. rewrite Z.mul_1_r. apply Z.mod_small. lia.
    - left. replace ((m - 1) * (m - 1)) with (1 + (m - 2) * m) by ring. rewrite Z.mod_add by lia. apply Z.mod_1_l, M1. }
  assert (Hk : 0 <= (m - 2) / 2 ^ j) by (apply Z.div_pos; [lia|apply Z.pow_pos_nonneg; lia]).
  destruct R as (W & _ & E). apply limbs_ok6_wf in W. rewrite limb_value6_val in E.
  assert (X : forall b c, represents6 m b c -> drops_high b = false -> drops_low b = false -> val6 a = (c * 2 ^ 384) mod m -> drops_high a = false /\ drops_low a = false).
  { intros b c (Wb & _ & Eb) D1 D2 Ea. replace a with b; [auto|]. apply limbs_ok6_wf in Wb. rewrite limb_value6_val in Eb. apply val6_inj; [exact Wb|exact W|congruence]. }
  destruct (K _ Hk) as [Q|Q]; rewrite Q in E.
  - apply (X R6_ONE 1 R1); [vm_compute; reflexivity|vm_compute; reflexivity|exact E].
  - apply (X (neg6 R6_ONE R6_P) (m - 1) RN); [vm_compute; reflexivity|vm_compute; reflexivity|exact E].
Qed.
