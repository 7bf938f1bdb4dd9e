(** Property C66: the integer helpers for windowed recoding ([reduce], [is_even], [mod_2_pow_k], [mods_2_pow_k],
    [divn]).  Specification: [limb_value] and [represents] (FieldSpec.v) and the operations of [Z]. *)
From Coq Require Import ZArith List Bool Lia.
From Verif Require Import LimbModel LimbProofs FieldModel FieldSpec FieldProofs FieldMore ClaimsField RecodeModel.
Import ListNotations.
Local Open Scope Z_scope.

(** [reduce] leaves the integer the element stands for in the limbs. *)
Theorem C66_reduce P m a x : bn_field P m -> represents m a x -> limbs_ok (freduce P a) /\ limb_value (freduce P a) = x.
Proof.
  intros F H. rp. pose proof (bn_ok P m F) as OK. unfold freduce. split; [apply limbs_ok_wf, (reduce_wf P m OK), (rep_wf m _ _ H)|]. rewrite limb_value_val. apply (rep_reduce P m OK), H.
Qed.

Lemma limb_bound a : limbs_ok a -> 0 <= limb_value a < 2 ^ 256.
Proof.
  intros (H0 & H1 & H2 & H3). unfold limb_ok, limb_value in *. change (2 ^ 64) with 18446744073709551616 in *. change (2 ^ 128) with (18446744073709551616 ^ 2) in *.
  change (2 ^ 192) with (18446744073709551616 ^ 3). change (2 ^ 256) with (18446744073709551616 ^ 4). lia.
Qed.
Lemma disjoint_lor x y k : 0 <= k -> 0 <= x < 2 ^ k -> Z.lor x (y * 2 ^ k) = x + y * 2 ^ k.
Proof.
  intros Hk Hx. assert (L : Z.land x (y * 2 ^ k) = 0).
  { apply Z.bits_inj'. intros n Hn. rewrite Z.land_spec, Z.bits_0. destruct (Z.ltb_spec n k) as [A|A].
    - rewrite Z.mul_pow2_bits_low by lia. apply andb_false_r.
    - assert (Z.testbit x n = false) as ->; [|reflexivity]. destruct (Z.eq_dec x 0) as [->|N]; [apply Z.bits_0|]. apply Z.bits_above_log2; [lia|].
      apply Z.log2_lt_pow2; [lia|]. apply Z.lt_le_trans with (2 ^ k); [lia|]. apply Z.pow_le_mono_r; lia. }
  rewrite <- Z.lxor_lor by exact L. symmetry. apply Z.add_nocarry_lxor, L.
Qed.
(** One limb of the shift: what stays of [x], and the low bits of its upper neighbour [y]. *)
Lemma shift_word x y n : 0 < n < 64 -> limb_ok x -> limb_ok y ->
  Z.lor (shr x n) ((y * 2 ^ (64 - n)) mod B) = x / 2 ^ n + (y mod 2 ^ n) * 2 ^ (64 - n) /\ 0 <= x / 2 ^ n < 2 ^ (64 - n).
Proof.
  intros Hn Hx Hy. assert (E : B = 2 ^ n * 2 ^ (64 - n)) by (rewrite <- Z.pow_add_r by lia; replace (n + (64 - n)) with 64 by lia; reflexivity).
  assert (P1 : 0 < 2 ^ n) by (apply Z.pow_pos_nonneg; lia). assert (P2 : 0 < 2 ^ (64 - n)) by (apply Z.pow_pos_nonneg; lia).
  assert (R : 0 <= x / 2 ^ n < 2 ^ (64 - n)).
  { split; [apply Z.div_pos; [apply Hx|lia]|]. apply Z.div_lt_upper_bound; [lia|]. rewrite <- E. apply Hx. }
  split; [|exact R]. unfold shr. rewrite Z.shiftr_div_pow2 by lia. rewrite E, Z.mul_mod_distr_r by lia. apply disjoint_lor; [lia|exact R].
Qed.
Lemma shift_bits_spec a n : 0 < n < 64 -> limbs_ok a -> limbs_ok (shift_bits a n) /\ limb_value (shift_bits a n) = limb_value a / 2 ^ n.
Proof.
  intros Hn (H0 & H1 & H2 & H3). destruct a as [x0 x1 x2 x3]. cbn [w0 w1 w2 w3] in *.
  assert (Z0 : limb_ok 0) by (unfold limb_ok; lia).
  destruct (shift_word x0 x1 n Hn H0 H1) as [E0 R0]. destruct (shift_word x1 x2 n Hn H1 H2) as [E1 R1]. destruct (shift_word x2 x3 n Hn H2 H3) as [E2 R2].
  destruct (shift_word x3 0 n Hn H3 Z0) as [_ R3].
  unfold shift_bits, limb_value, limbs_ok. cbn [w0 w1 w2 w3]. rewrite E0, E1, E2, Z.lor_0_r. unfold shr. rewrite Z.shiftr_div_pow2 by lia.
  set (p := 2 ^ n) in *. set (c := 2 ^ (64 - n)) in *.
  assert (E : 2 ^ 64 = p * c) by (unfold p, c; rewrite <- Z.pow_add_r by lia; f_equal; lia).
  assert (P1 : 0 < p) by (apply Z.pow_pos_nonneg; lia). assert (P2 : 0 < c) by (apply Z.pow_pos_nonneg; lia).
  assert (M : forall v, 0 <= v mod p < p) by (intros v; apply Z.mod_pos_bound, P1).
  assert (W : forall u v, 0 <= u < c -> 0 <= v < p -> 0 <= u + v * c < p * c) by (intros u v A C; nia).
  unfold limb_ok. rewrite E. split.
  - pose proof (W _ _ R0 (M x1)). pose proof (W _ _ R1 (M x2)). pose proof (W _ _ R2 (M x3)). pose proof (W _ _ R3 (conj (Z.le_refl 0) P1)). repeat split; lia.
  - change (2 ^ 128) with (2 ^ 64 * 2 ^ 64). change (2 ^ 192) with (2 ^ 64 * 2 ^ 64 * 2 ^ 64). rewrite E.
    apply Z.div_unique with (x0 mod p); [left; apply M|].
    rewrite (Z.div_mod x0 p) at 1 by lia. rewrite (Z.div_mod x1 p) at 1 by lia. rewrite (Z.div_mod x2 p) at 1 by lia. rewrite (Z.div_mod x3 p) at 1 by lia. ring.
Qed.
Lemma shift_limb_spec a : limbs_ok a -> limbs_ok (shift_limb a) /\ limb_value (shift_limb a) = limb_value a / 2 ^ 64.
Proof.
  intros (H0 & H1 & H2 & H3). split; [unfold shift_limb, limbs_ok, limb_ok in *; cbn [w0 w1 w2 w3]; lia|].
  unfold shift_limb, limb_value. cbn [w0 w1 w2 w3]. apply Z.div_unique with (w0 a); [left; exact H0|].
  change (2 ^ 128) with (2 ^ 64 * 2 ^ 64). change (2 ^ 192) with (2 ^ 64 * 2 ^ 64 * 2 ^ 64). ring.
Qed.
Lemma divn_limbs_spec f : forall a n, limbs_ok a -> 0 <= n < 64 * Z.of_nat f -> let (b, k) := divn_limbs f a n in
  limbs_ok b /\ 0 <= k < 64 /\ limb_value b / 2 ^ k = limb_value a / 2 ^ n.
Proof.
  induction f as [|f IH]; intros a n H R; [lia|]. cbn [divn_limbs]. destruct (Z.leb_spec 64 n) as [A|A].
  - destruct (shift_limb_spec a H) as [H' E]. specialize (IH (shift_limb a) (n - 64) H' ltac:(lia)). destruct (divn_limbs f (shift_limb a) (n - 64)) as [b k].
    destruct IH as (Hb & Hk & V). split; [exact Hb|]. split; [exact Hk|]. rewrite V, E, Z.div_div by (try apply Z.pow_pos_nonneg; try apply Z.pow_nonzero; lia).
    f_equal. rewrite <- Z.pow_add_r by lia. f_equal. lia.
  - split; [exact H|]. split; [lia|reflexivity].
Qed.
(** [divn] divides the integer in the limbs, rounding down, for every shift. *)
Theorem C66_divn P m a n : bn_field P m -> limbs_ok a -> 0 <= n -> limbs_ok (divn P a n) /\ limb_value (divn P a n) = limb_value a / 2 ^ n.
Proof.
  intros F H Hn. unfold divn. destruct (Z.leb_spec 256 n) as [A|A].
  - assert (E : ffrom_u64 P 0 = L4 0 0 0 0) by (destruct F as [[-> _]|[-> _]]; vm_compute; reflexivity). rewrite E.
    split; [unfold limbs_ok, limb_ok; cbn [w0 w1 w2 w3]; lia|]. unfold limb_value at 1. cbn [w0 w1 w2 w3]. symmetry. apply Z.div_small.
    pose proof (limb_bound a H) as [L U]. split; [exact L|]. apply Z.lt_le_trans with (2 ^ 256); [exact U|]. apply Z.pow_le_mono_r; lia.
  - pose proof (divn_limbs_spec 4 a n H ltac:(cbn; lia)) as S. destruct (divn_limbs 4 a n) as [b k]. destruct S as (Hb & Hk & V). rewrite <- V.
    destruct (Z.ltb_spec 0 k) as [K|K]; [apply shift_bits_spec; [lia|exact Hb]|]. replace k with 0 by lia. rewrite Z.div_1_r. split; [exact Hb|reflexivity].
Qed.

Lemma low_limb a k : limbs_ok a -> 0 <= k <= 64 -> w0 a mod 2 ^ k = limb_value a mod 2 ^ k.
Proof.
  intros H Hk. unfold limb_value. assert (P1 : 0 < 2 ^ k) by (apply Z.pow_pos_nonneg; lia).
  replace (w0 a + 2 ^ 64 * w1 a + 2 ^ 128 * w2 a + 2 ^ 192 * w3 a) with (w0 a + (2 ^ (64 - k) * (w1 a + 2 ^ 64 * w2 a + 2 ^ 128 * w3 a)) * 2 ^ k).
  - rewrite Z.mod_add by lia. reflexivity.
  - assert (E : 2 ^ 64 = 2 ^ (64 - k) * 2 ^ k) by (rewrite <- Z.pow_add_r by lia; f_equal; lia).
    change (2 ^ 192) with (2 ^ 64 * 2 ^ 128). change (2 ^ 128) with (2 ^ 64 * 2 ^ 64). set (u := 2 ^ (64 - k)) in *. set (v := 2 ^ k) in *. set (t := 2 ^ 64) in *. transitivity (w0 a + (u * v) * (w1 a + t * w2 a + t * t * w3 a)); [ring|]. rewrite <- E. ring.
Qed.
(** Parity and low bits of the integer in the limbs. *)
Theorem C66_low_bits a k : limbs_ok a -> 0 <= k < 64 ->
  is_even a = Z.even (limb_value a) /\ mod_2_pow_k a k = (limb_value a mod 2 ^ k) mod 256 /\ (k <= 8 -> mod_2_pow_k a k = limb_value a mod 2 ^ k).
Proof.
  intros H Hk. assert (M : mod_2_pow_k a k = (limb_value a mod 2 ^ k) mod 256).
  { unfold mod_2_pow_k. rewrite <- (low_limb a k H ltac:(lia)). f_equal. replace (2 ^ k - 1) with (Z.ones k) by (rewrite Z.ones_equiv; lia). apply Z.land_ones. lia. }
  split; [|split].
  - unfold is_even. change 2 with (2 ^ 1). rewrite (low_limb a 1 H ltac:(lia)). change (2 ^ 1) with 2. rewrite Zmod_even. destruct (Z.even (limb_value a)); reflexivity.
  - exact M.
  - intros K. rewrite M. apply Z.mod_small. pose proof (Z.mod_pos_bound (limb_value a) (2 ^ k) ltac:(apply Z.pow_pos_nonneg; lia)) as R.
    assert (2 ^ k <= 2 ^ 8) by (apply Z.pow_le_mono_r; lia). change (2 ^ 8) with 256 in *. lia.
Qed.
(** The signed residue: the number congruent to the integer modulo 2^w in [-2^(w-1), 2^(w-1)). *)
Definition signed_residue (w v d : Z) : Prop := - 2 ^ (w - 1) <= d < 2 ^ (w - 1) /\ (v - d) mod 2 ^ w = 0.
Theorem C66_signed_residue a w : limbs_ok a -> 1 <= w <= 6 -> exists d, mods_2_pow_k a w = Some d /\ signed_residue w (limb_value a) d.
Proof.
  intros H Hw. pose proof (proj2 (proj2 (C66_low_bits a w H ltac:(lia))) ltac:(lia)) as M.
  assert (P1 : 0 < 2 ^ w) by (apply Z.pow_pos_nonneg; lia). pose proof (Z.mod_pos_bound (limb_value a) (2 ^ w) P1) as R.
  assert (E2 : 2 ^ w = 2 * 2 ^ (w - 1)) by (rewrite <- Z.pow_succ_r by lia; f_equal; lia).
  assert (B6 : 2 ^ w <= 64) by (change 64 with (2 ^ 6); apply Z.pow_le_mono_r; lia).
  set (h := 2 ^ (w - 1)) in *. set (r := limb_value a mod 2 ^ w) in *.
  assert (D : limb_value a = 2 ^ w * (limb_value a / 2 ^ w) + r) by (apply Z.div_mod; lia).
  unfold mods_2_pow_k. rewrite M. fold h.
  assert (A1 : w <? 32 = true) by (apply Z.ltb_lt; lia). assert (A2 : w =? 0 = false) by (apply Z.eqb_neq; lia). assert (A3 : 8 <=? w - 1 = false) by (apply Z.leb_gt; lia).
  assert (A4 : 8 <=? w = false) by (apply Z.leb_gt; lia). rewrite A1, A2, A3, A4. cbn [negb]. unfold as_i8.
  assert (A5 : r <? 128 = true) by (apply Z.ltb_lt; lia). assert (A6 : h <? 128 = true) by (apply Z.ltb_lt; lia). assert (A7 : 2 ^ w <? 128 = true) by (apply Z.ltb_lt; lia).
  rewrite A5, A6, A7. destruct (Z.geb_spec r h) as [G|G].
  - assert (A8 : (-128 <=? r - 2 ^ w) && (r - 2 ^ w <=? 127) = true) by (apply andb_true_iff; split; apply Z.leb_le; lia). rewrite A8.
    exists (r - 2 ^ w). split; [reflexivity|]. split; [fold h; lia|]. replace (limb_value a - (r - 2 ^ w)) with ((limb_value a / 2 ^ w + 1) * 2 ^ w) by lia. apply Z.mod_mul. lia.
  - exists r. split; [reflexivity|]. split; [fold h; lia|]. replace (limb_value a - r) with ((limb_value a / 2 ^ w) * 2 ^ w) by lia. apply Z.mod_mul. lia.
Qed.
(** Outside these widths: the type [i8] is too small. *)
Theorem C66_signed_residue_panics a w : limbs_ok a -> (w = 0 \/ 8 <= w -> mods_2_pow_k a w = None) /\
  (mods_2_pow_k a 7 = (if limb_value a mod 128 <? 64 then Some (limb_value a mod 128) else None)).
Proof.
  intros H. split.
  - intros [->|K]; [reflexivity|]. unfold mods_2_pow_k. destruct (w <? 32) eqn:A; [|reflexivity]. cbn [negb]. destruct (Z.eqb_spec w 0) as [->|_]; [reflexivity|].
    destruct (Z.leb_spec 8 (w - 1)) as [L|L]; [reflexivity|]. assert (w = 8) as -> by lia. change (as_i8 (2 ^ (8 - 1))) with (-128). change (8 <=? 8) with true.
    destruct (Z.geb_spec (as_i8 (mod_2_pow_k a 8)) (-128)) as [G|G]; [reflexivity|]. exfalso. revert G. unfold as_i8.
    assert (R : 0 <= mod_2_pow_k a 8 < 256) by (unfold mod_2_pow_k; apply Z.mod_pos_bound; lia). destruct (Z.ltb_spec (mod_2_pow_k a 8) 128); lia.
  - pose proof (proj2 (proj2 (C66_low_bits a 7 H ltac:(lia))) ltac:(lia)) as M. unfold mods_2_pow_k. rewrite M. change (2 ^ 7) with 128.
    pose proof (Z.mod_pos_bound (limb_value a) 128 ltac:(lia)) as R. set (r := limb_value a mod 128) in *. cbn [Z.ltb Z.compare Pos.compare Pos.compare_cont negb Z.eqb].
    change (8 <=? 7 - 1) with false. change (8 <=? 7) with false. change (as_i8 (2 ^ (7 - 1))) with 64. change (as_i8 128) with (-128). unfold as_i8.
    assert (A5 : r <? 128 = true) by (apply Z.ltb_lt; lia). rewrite A5. destruct (Z.geb_spec r 64) as [G|G], (Z.ltb_spec r 64) as [L|L]; try lia; try reflexivity.
    assert (A8 : (-128 <=? r - -128) && (r - -128 <=? 127) = false) by (apply andb_false_iff; right; apply Z.leb_gt; lia). rewrite A8. reflexivity.
Qed.
(** One step of a windowed recoding of the scalar [x]: on the reduced element, the digit [d] of an odd integer is odd,
    and [x - d] is divisible by 2^w. *)
Theorem C66_recoding_step P m a x w : bn_field P m -> represents m a x -> 1 <= w <= 6 -> Z.odd x = true ->
  is_even (freduce P a) = false /\ exists d, mods_2_pow_k (freduce P a) w = Some d /\ Z.odd d = true /\ - 2 ^ (w - 1) <= d < 2 ^ (w - 1) /\ (x - d) mod 2 ^ w = 0.
Proof.
  intros F H Hw O. destruct (C66_reduce P m a x F H) as [L V]. destruct (C66_low_bits (freduce P a) 1 L ltac:(lia)) as (E & _). destruct (C66_signed_residue _ w L Hw) as (d & D & S & R).
  rewrite V in E, R. split; [rewrite E, <- Z.negb_odd, O; reflexivity|]. exists d. split; [exact D|]. split; [|split; [exact S|exact R]].
  assert (P1 : 0 < 2 ^ w) by (apply Z.pow_pos_nonneg; lia).
  pose proof (Z.div_mod (x - d) (2 ^ w) ltac:(lia)) as Q. rewrite R, Z.add_0_r in Q. assert (E2 : 2 ^ w = 2 * 2 ^ (w - 1)) by (rewrite <- Z.pow_succ_r by lia; f_equal; lia).
  assert (EV : Z.even (x - d) = true) by (rewrite Q, E2, <- Z.mul_assoc, Z.even_mul; reflexivity).
  rewrite Z.even_sub, <- !Z.negb_odd, O in EV. destruct (Z.odd d); [reflexivity|discriminate].
Qed.
(** Without [reduce] the helpers act on the Montgomery form: halving the element 4 does not give 2. *)
Theorem C66_without_reduce_refuted : exists a, represents R_MOD a 4 /\ ~ represents R_MOD (divn fr a 1) 2 /\ limb_value (divn fr (freduce fr a) 1) = 2.
Proof.
  exists (enc fr 4). assert (R : rep R_MOD (enc fr 4) 4) by (apply enc_rep; [exact fr_ok|rewrite R_MOD_val; lia]).
  split; [apply of_rep, R|]. split; [|vm_compute; reflexivity]. intros (_ & _ & E). revert E. apply Z.eqb_neq. vm_compute. reflexivity.
Qed.
Example C66_example : let a := L4 0x8123456789abcdef 5 7 0x2000000000000001 in
  limbs_ok a /\ mods_2_pow_k a 5 = Some 15 /\ mods_2_pow_k a 4 = Some (-1) /\ limb_value (divn fr a 130) = limb_value a / 2 ^ 130 /\
  represents R_MOD (enc fr 7) 7 /\ mods_2_pow_k (freduce fr (enc fr 7)) 3 = Some (-1) /\ mods_2_pow_k a 7 = None.
Proof.
  cbv zeta. split; [unfold limbs_ok, limb_ok; cbn [w0 w1 w2 w3]; lia|]. split; [vm_compute; reflexivity|]. split; [vm_compute; reflexivity|]. split; [vm_compute; reflexivity|].
  split; [apply of_rep, enc_rep; [exact fr_ok|rewrite R_MOD_val; lia]|]. split; vm_compute; reflexivity.
Qed.
