From Coq Require Import ZArith List Bool Lia Znumtheory Zdiv Zpow_facts Setoid Morphisms.
From Verif Require Import LimbModel LimbProofs MontProofs FieldModel FieldSpec Primes.
Import ListNotations.
Local Open Scope Z_scope.

Global Opaque mont mul_wide square_wide sub4 add_masked add neg.

(** ** Spec vocabulary in terms of [val]. *)
Lemma limb_value_val a : limb_value a = val a.
Proof. unfold limb_value, val. rewrite Bval. ring. Qed.
Lemma limbs_ok_wf a : limbs_ok a <-> wf a.
Proof. unfold limbs_ok, limb_ok, wf, word. rewrite Bval. change (2 ^ 64) with 18446744073709551616. tauto. Qed.
Lemma B4 : B ^ 4 = 2 ^ 256. Proof. rewrite Bval. reflexivity. Qed.

Definition rep (m : Z) (a : l4) (c : Z) : Prop := wf a /\ 0 <= c < m /\ val a = (c * B ^ 4) mod m.
Lemma represents_rep m a c : represents m a c <-> rep m a c.
Proof. unfold represents, rep. rewrite limb_value_val, limbs_ok_wf, B4. tauto. Qed.

(** ** The lost carry in closed form. *)
Lemma drops_carry_spec a : wf a -> square_lost_carry a = if drops_carry a then 1 else 0.
Proof.
  intros (A0 & A1 & A2 & A3). unfold square_lost_carry, drops_carry, cross_sum.
  change (2 ^ 320) with (2^64 * 2^64*2^64*2^64*2^64). change (2 ^ 256) with (2^64 * 2^64*2^64*2^64).
  change (2 ^ 192) with (2^64*2^64*2^64). change (2^128) with (2^64*2^64).
  replace (2 ^ 64) with B by (rewrite Bval; reflexivity).
  destruct (halves_spec (w1 a * w0 a)) as (l1 & c1 & -> & H1 & C1 & E1);
    [replace (w1 a * w0 a) with (0 + w1 a * w0 a + 0) by ring; apply mac_no_overflow; auto using word0|].
  destruct (halves_spec (w2 a * w0 a + c1)) as (l2 & c2 & -> & H2 & C2 & E2);
    [replace (w2 a * w0 a + c1) with (0 + w2 a * w0 a + c1) by ring; apply mac_no_overflow; auto using word0|].
  destruct (halves_spec (w3 a * w0 a + c2)) as (l3 & c3 & -> & H3 & C3 & E3);
    [replace (w3 a * w0 a + c2) with (0 + w3 a * w0 a + c2) by ring; apply mac_no_overflow; auto using word0|].
  destruct (halves_spec (w1 a * w3 a + c3)) as (l4 & c4 & -> & H4 & C4 & E4);
    [replace (w1 a * w3 a + c3) with (0 + w1 a * w3 a + c3) by ring; apply mac_no_overflow; auto using word0|].
  destruct (halves_spec (w2 a * w3 a + c4)) as (l5 & l6 & -> & H5 & C5 & E5);
    [replace (w2 a * w3 a + c4) with (0 + w2 a * w3 a + c4) by ring; apply mac_no_overflow; auto using word0|].
  destruct (halves_spec (w1 a * w2 a + l3)) as (m3 & d3 & -> & H6 & C6 & E6);
    [replace (w1 a * w2 a + l3) with (0 + w1 a * w2 a + l3) by ring; apply mac_no_overflow; auto using word0|].
  destruct (halves_spec (l4 + d3)) as (m4 & d4 & -> & H7 & C7 & E7);
    [unfold word in *; rewrite Bval in *; lia|].
  set (S := w0 a * w1 a + B * (w0 a * w2 a) + B * B * (w0 a * w3 a) + B * B * B * (w1 a * w3 a)
            + B * B * B * B * (w2 a * w3 a)).
  assert (ES : S = l1 + B * l2 + B * B * l3 + B * B * B * l4 + B * B * B * B * l5 + l6 * (B * B * B * B * B)).
  { unfold S. clear - E1 E2 E3 E4 E5.
    assert (X1 : w0 a * w1 a = l1 + B * c1) by lia.
    assert (X2 : w0 a * w2 a = l2 + B * c2 - c1) by lia.
    assert (X3 : w0 a * w3 a = l3 + B * c3 - c2) by lia.
    assert (X4 : w1 a * w3 a = l4 + B * c4 - c3) by lia.
    assert (X5 : w2 a * w3 a = l5 + B * l6 - c4) by lia.
    rewrite X1, X2, X3, X4, X5. ring. }
  assert (EM : S mod (B * B * B * B * B) = l1 + B * l2 + B * B * l3 + B * B * B * l4 + B * B * B * B * l5).
  { rewrite ES. rewrite Z.mod_add by (rewrite Bval; discriminate). apply Z.mod_small.
    clear - H1 H2 H3 H4 H5. unfold word in *. rewrite Bval in *. lia. }
  rewrite EM.
  assert (X6 : w1 a * w2 a = m3 + B * d3 - l3) by lia.
  replace (l1 + B * l2 + B * B * l3 + B * B * B * l4 + B * B * B * B * l5 + B * B * (w1 a * w2 a))
    with (l1 + B * l2 + B * B * m3 + B * B * B * m4 + B * B * B * B * (l5 + d4))
    by (rewrite X6; replace l4 with (m4 + B * d4 - d3) by lia; ring).
  clear - H1 H2 H5 H6 H7 C7. unfold word in *. 
  match goal with |- _ = if ?b then _ else _ => destruct b eqn:E end.
  - apply Z.leb_le in E. rewrite Bval in *.
    symmetry. apply (Z.div_unique_pos _ _ _ (l5 + d4 - 18446744073709551616)); lia.
  - apply Z.leb_gt in E. apply Z.div_small. rewrite Bval in *. lia.
Qed.

(** ** Congruences. *)
Lemma eqm_div m a b : 0 < m -> (a mod m = b mod m <-> exists k, a = b + k * m).
Proof.
  intros Hm. split.
  - intros E. exists (a / m - b / m). pose proof (Z.div_mod a m ltac:(lia)). pose proof (Z.div_mod b m ltac:(lia)). lia.
  - intros [k ->]. apply Z.mod_add. lia.
Qed.

(** ** What the macro parameters must satisfy. *)
Record params_ok (P : fparams) (m : Z) : Prop := {
  po_mod : mod_ok (fmod P) (finv P);
  po_m : val (fmod P) = m;
  po_R : wf (fR P) /\ val (fR P) = B ^ 4 mod m;
  po_R2 : wf (fR2 P) /\ val (fR2 P) = B ^ 8 mod m;
  po_R3 : wf (fR3 P) /\ val (fR3 P) = B ^ 12 mod m
}.

Lemma fr_ok : params_ok fr R_MOD.
Proof.
  constructor; [constructor|..]; unfold wf, word, val; rewrite ?Bval; cbn [fr fmod finv fR fR2 fR3 w0 w1 w2 w3];
    try (vm_compute; intuition congruence).
Qed.
Lemma fq_ok : params_ok fq Q_MOD.
Proof.
  constructor; [constructor|..]; unfold wf, word, val; rewrite ?Bval; cbn [fq fmod finv fR fR2 fR3 w0 w1 w2 w3];
    try (vm_compute; intuition congruence).
Qed.
Lemma R_MOD_prime : prime R_MOD. Proof. exact prime_bn254_r. Qed.
Lemma Q_MOD_prime : prime Q_MOD. Proof. exact prime_bn254_q. Qed.
Global Opaque R_MOD Q_MOD.

Section Rep.
Variables (P : fparams) (m : Z).
Hypothesis OK : params_ok P m.
Notation p := (fmod P).
Notation inv := (finv P).

Lemma m_val : val p = m. Proof. exact (po_m _ _ OK). Qed.
Lemma p_ok : mod_ok p inv. Proof. exact (po_mod _ _ OK). Qed.
Lemma p_wf : wf p. Proof. exact (mo_wf _ _ p_ok). Qed.
Lemma m_gt1 : 1 < m. Proof. rewrite <- m_val. exact (mo_one _ _ p_ok). Qed.
Lemma m_half : 2 * m < B ^ 4. Proof. rewrite <- m_val. exact (mo_half _ _ p_ok). Qed.

Lemma rel_prime_B4 : rel_prime (B ^ 4) m.
Proof.
  apply rel_prime_sym, rel_prime_Zpower_r; [lia|].
  pose proof (mo_inv _ _ p_ok) as E. apply Z.mod_divide in E; [|pose proof Bpos; lia]. destruct E as [k E].
  rewrite <- m_val. apply bezout_rel_prime.
  apply Bezout_intro with (u := - inv) (v := k + (w1 p + B * w2 p + B ^ 2 * w3 p) * inv).
  unfold val. transitivity (k * B - w0 p * inv); [ring|]. lia.
Qed.

Lemma cancel_B4 x y : (x * B ^ 4) mod m = (y * B ^ 4) mod m -> x mod m = y mod m.
Proof.
  intros E. apply (cancel_mod m (B ^ 4)); [exact rel_prime_B4|pose proof m_gt1; lia|].
  rewrite !(Z.mul_comm (B ^ 4)). exact E.
Qed.

(** Montgomery product of any two limb vectors whose product is small enough. *)
Lemma mul_mod a b : wf a -> wf b -> val a * val b < m * B ^ 4 ->
  wf (fmul P a b) /\ 0 <= val (fmul P a b) < m /\ (val (fmul P a b) * B ^ 4) mod m = (val a * val b) mod m.
Proof.
  intros Ha Hb Hlt. rewrite <- m_val in Hlt.
  destruct (mul_spec a b p inv p_ok Ha Hb Hlt) as (W & L & M & E). rewrite m_val in *.
  split; [exact W|]. split; [pose proof (val_range _ W); unfold fmul; lia|].
  unfold fmul. rewrite E. apply Z.mod_add. pose proof m_gt1; lia.
Qed.

Lemma rep_lt a c : rep m a c -> 0 <= val a < m.
Proof. intros (_ & _ & ->). apply Z.mod_pos_bound. pose proof m_gt1; lia. Qed.
Lemma rep_wf a c : rep m a c -> wf a. Proof. intros (H & _). exact H. Qed.

Lemma rep_intro a c : wf a -> 0 <= val a < m -> val a mod m = (c * B ^ 4) mod m -> rep m a (c mod m).
Proof.
  intros W L E. pose proof m_gt1. split; [exact W|]. split; [apply Z.mod_pos_bound; lia|].
  rewrite Z.mul_mod_idemp_l by lia. rewrite <- E. symmetry. apply Z.mod_small. exact L.
Qed.

Lemma rep_fun a c d : rep m a c -> rep m a d -> c = d.
Proof.
  intros (_ & Hc & Ec) (_ & Hd & Ed). rewrite Ec in Ed. apply cancel_B4 in Ed.
  rewrite !Z.mod_small in Ed; assumption.
Qed.
Lemma rep_inj a b c : rep m a c -> rep m b c -> a = b.
Proof. intros (Wa & _ & Ea) (Wb & _ & Eb). apply val_inj; congruence. Qed.

Lemma reduce_spec a : wf a ->
  wf (montgomery_reduce P a) /\ 0 <= val (montgomery_reduce P a) < m /\
  (val (montgomery_reduce P a) * B ^ 4) mod m = val a mod m.
Proof.
  intros W. pose proof (val_range a W) as Ra. pose proof m_gt1 as M1. unfold montgomery_reduce.
  assert (W8 : wf8 (L8 (w0 a) (w1 a) (w2 a) (w3 a) 0 0 0 0)).
  { destruct W as (? & ? & ? & ?). unfold wf8; cbn [v0 v1 v2 v3 v4 v5 v6 v7]. auto 20 using word0. }
  assert (E8 : val8 (L8 (w0 a) (w1 a) (w2 a) (w3 a) 0 0 0 0) = val a).
  { unfold val8, val; cbn [v0 v1 v2 v3 v4 v5 v6 v7]. ring. }
  destruct (mont_spec _ p inv p_ok W8) as (W' & L & M & E).
  { rewrite E8, m_val. nia. }
  rewrite m_val in *. split; [exact W'|]. split; [pose proof (val_range _ W'); lia|].
  rewrite E, E8. apply Z.mod_add. lia.
Qed.

Lemma rep_reduce a c : rep m a c -> val (montgomery_reduce P a) = c.
Proof.
  intros R. pose proof R as (W & Hc & E). destruct (reduce_spec a W) as (_ & L & E').
  rewrite E, Z.mod_mod in E' by (pose proof m_gt1; lia). apply cancel_B4 in E'.
  rewrite !Z.mod_small in E'; assumption.
Qed.
Lemma reduce_wf a : wf a -> wf (montgomery_reduce P a).
Proof. intros W. exact (proj1 (reduce_spec a W)). Qed.

Lemma rep_exists a : wf a -> val a < m -> rep m a (val (montgomery_reduce P a)).
Proof.
  intros W L. destruct (reduce_spec a W) as (_ & L' & E'). split; [exact W|]. split; [exact L'|].
  rewrite E'. symmetry. apply Z.mod_small. pose proof (val_range a W). lia.
Qed.

Lemma rep_zero : rep m fzero 0.
Proof.
  split; [unfold wf; cbn; auto using word0|]. pose proof m_gt1. split; [lia|]. rewrite Z.mul_0_l, Z.mod_0_l by lia.
  unfold val; cbn. ring.
Qed.
Lemma rep_one : rep m (fone P) 1.
Proof. destruct (po_R _ _ OK) as [W E]. split; [exact W|]. pose proof m_gt1. split; [lia|]. rewrite Z.mul_1_l. exact E. Qed.

Ltac modeq := apply eqm_div; [pose proof m_gt1; lia|].

Lemma rep_add a b x y : rep m a x -> rep m b y -> rep m (fadd P a b) ((x + y) mod m).
Proof.
  intros Ra Rb. pose proof (rep_lt _ _ Ra) as La. pose proof (rep_lt _ _ Rb) as Lb.
  destruct Ra as (Wa & Hx & Ea), Rb as (Wb & Hy & Eb). pose proof m_half. pose proof m_gt1.
  destruct (add_spec a b p Wa Wb p_wf ltac:(lia)) as [W E]. rewrite m_val in E.
  apply rep_intro; [exact W| |]; unfold fadd.
  - rewrite E. destruct (Z.ltb_spec (val a + val b) m); lia.
  - transitivity ((val a + val b) mod m).
    + rewrite E. destruct (Z.ltb_spec (val a + val b) m); [reflexivity|]. modeq. exists (-1). ring.
    + rewrite Ea, Eb, <- Z.add_mod by lia. f_equal. ring.
Qed.

Lemma rep_sub a b x y : rep m a x -> rep m b y -> rep m (fsub P a b) ((x - y) mod m).
Proof.
  intros Ra Rb. pose proof (rep_lt _ _ Ra) as La. pose proof (rep_lt _ _ Rb) as Lb.
  destruct Ra as (Wa & Hx & Ea), Rb as (Wb & Hy & Eb). pose proof m_gt1.
  destruct (sub_spec a b p Wa Wb p_wf) as [W E]; [rewrite m_val; lia|]. rewrite m_val in E.
  apply rep_intro; [exact W| |]; unfold fsub.
  - rewrite E. destruct (Z.ltb_spec (val a) (val b)); lia.
  - transitivity ((val a - val b) mod m).
    + rewrite E. destruct (Z.ltb_spec (val a) (val b)); [|reflexivity]. modeq. exists 1. ring.
    + rewrite Ea, Eb, <- Zminus_mod. f_equal. ring.
Qed.

Lemma rep_neg a x : rep m a x -> rep m (fneg P a) ((- x) mod m).
Proof.
  intros Ra. pose proof (rep_lt _ _ Ra) as La. destruct Ra as (Wa & Hx & Ea). pose proof m_gt1.
  destruct (neg_spec a p Wa p_wf) as [W E]; [rewrite m_val; lia|]. rewrite m_val in E.
  apply rep_intro; [exact W| |]; unfold fneg.
  - rewrite E. destruct (Z.eqb_spec (val a) 0); lia.
  - transitivity ((- val a) mod m).
    + rewrite E. destruct (Z.eqb_spec (val a) 0) as [->|]; [reflexivity|]. modeq. exists 1. ring.
    + replace (- x * B ^ 4) with (0 - x * B ^ 4) by ring. rewrite Zminus_mod. rewrite <- Ea. replace (- val a) with (0 - val a) by ring.
      rewrite Zminus_mod. rewrite (Z.mod_small (val a)) by lia. reflexivity.
Qed.

Lemma rep_double a x : rep m a x -> rep m (fdouble P a) ((2 * x) mod m).
Proof.
  intros Ra. pose proof (rep_lt _ _ Ra) as La. destruct Ra as (Wa & Hx & Ea). pose proof m_gt1. pose proof m_half.
  destruct (double_spec a p Wa p_wf ltac:(lia)) as [W E]. rewrite m_val in E.
  apply rep_intro; [exact W| |]; unfold fdouble.
  - rewrite E. destruct (Z.ltb_spec (2 * val a) m); lia.
  - transitivity ((2 * val a) mod m).
    + rewrite E. destruct (Z.ltb_spec (2 * val a) m); [reflexivity|]. modeq. exists (-1). ring.
    + rewrite Ea, Z.mul_mod_idemp_r by lia. f_equal. ring.
Qed.

Lemma rep_mul a b x y : rep m a x -> rep m b y -> rep m (fmul P a b) ((x * y) mod m).
Proof.
  intros Ra Rb. pose proof (rep_lt _ _ Ra) as La. pose proof (rep_lt _ _ Rb) as Lb.
  destruct Ra as (Wa & Hx & Ea), Rb as (Wb & Hy & Eb). pose proof m_half. pose proof m_gt1.
  destruct (mul_mod a b Wa Wb ltac:(nia)) as (W & L & E).
  apply rep_intro; [exact W|exact L|]. apply cancel_B4. rewrite E, Ea, Eb, <- Z.mul_mod by lia.
  f_equal. ring.
Qed.

(** Entering Montgomery form, from any 256-bit integer. *)
Lemma rep_to_mont v : wf v -> rep m (fto_mont_form P v) (val v mod m).
Proof.
  intros W. destruct (po_R2 _ _ OK) as [W2 E2]. pose proof m_gt1. pose proof (val_range v W).
  pose proof (Z.mod_pos_bound (B ^ 8) m ltac:(lia)).
  destruct (mul_mod v (fR2 P) W W2 ltac:(rewrite E2; nia)) as (W' & L & E).
  apply rep_intro; [exact W'|exact L|]. apply cancel_B4. unfold fto_mont_form, to_mont_form. unfold fmul in E.
  rewrite E, E2, Z.mul_mod_idemp_r by lia. f_equal. ring.
Qed.

Lemma rep_mul_R3 v : wf v -> rep m (fmul P v (fR3 P)) ((val v * B ^ 4) mod m).
Proof.
  intros W. destruct (po_R3 _ _ OK) as [W3 E3]. pose proof m_gt1. pose proof (val_range v W).
  pose proof (Z.mod_pos_bound (B ^ 12) m ltac:(lia)).
  destruct (mul_mod v (fR3 P) W W3 ltac:(rewrite E3; nia)) as (W' & L & E).
  apply rep_intro; [exact W'|exact L|]. apply cancel_B4.
  rewrite E, E3, Z.mul_mod_idemp_r by lia. f_equal. ring.
Qed.

Lemma rep_from_u512 l : wf8 l -> rep m (from_u512 l (fR2 P) (fR3 P) p inv) (val8 l mod m).
Proof.
  intros W. pose proof m_gt1.
  assert (Wl : wf (L4 (v0 l) (v1 l) (v2 l) (v3 l))) by (destruct W as (?&?&?&?&?&?&?&?); unfold wf; cbn; auto).
  assert (Wh : wf (L4 (v4 l) (v5 l) (v6 l) (v7 l))) by (destruct W as (?&?&?&?&?&?&?&?); unfold wf; cbn; auto).
  pose proof (rep_to_mont _ Wl) as R1. pose proof (rep_mul_R3 _ Wh) as R2.
  pose proof (rep_add _ _ _ _ R1 R2) as R. rewrite <- Z.add_mod in R by lia.
  replace (val8 l) with (val (L4 (v0 l) (v1 l) (v2 l) (v3 l)) + val (L4 (v4 l) (v5 l) (v6 l) (v7 l)) * B ^ 4).
  - unfold from_u512. unfold fadd, fto_mont_form, to_mont_form, fmul in R. exact R.
  - unfold val, val8; cbn [w0 w1 w2 w3]. ring.
Qed.

(** Equality tests. *)
Lemma eqb4_eq a b : eqb4 a b = true <-> a = b.
Proof.
  unfold eqb4. rewrite !andb_true_iff, !Z.eqb_eq. destruct a, b; cbn. split.
  - intros (((-> & ->) & ->) & ->). reflexivity.
  - intros E. injection E; auto.
Qed.
Lemma rep_eqb a b x y : rep m a x -> rep m b y -> feqb a b = (x =? y).
Proof.
  intros Ra Rb. unfold feqb. apply eq_true_iff_eq. rewrite eqb4_eq, Z.eqb_eq. split.
  - intros ->. apply (rep_fun b); assumption.
  - intros ->. apply (rep_inj _ _ y); assumption.
Qed.
Lemma is_zero_eqb a : fis_zero a = eqb4 a zero4. Proof. reflexivity. Qed.
Lemma rep_is_zero a x : rep m a x -> fis_zero a = (x =? 0).
Proof. intros Ra. rewrite is_zero_eqb. exact (rep_eqb a fzero x 0 Ra rep_zero). Qed.

(** ** Square. *)
Lemma wide_bound a x : rep m a x -> val a * val a < m * B ^ 4.
Proof. intros Ra. pose proof (rep_lt _ _ Ra). pose proof m_half. nia. Qed.

Lemma square_mod a x : rep m a x ->
  wf (fsquare P a) /\ 0 <= val (fsquare P a) < m /\
  (val (fsquare P a) * B ^ 4) mod m = (val a * val a - (if drops_carry a then 2 * B ^ 6 else 0)) mod m.
Proof.
  intros Ra. pose proof (wide_bound a x Ra) as Hb. pose proof Ra as (W & _).
  destruct (square_wide_spec a W) as (W8 & L & E). rewrite drops_carry_spec in L, E by exact W.
  destruct (mont_spec (square_wide a) p inv p_ok W8) as (W' & L' & M & E').
  { rewrite m_val, E. destruct (drops_carry a); pose proof Bpos; nia. }
  rewrite m_val in *. fold (square a p inv) in *. fold (fsquare P a) in *.
  split; [exact W'|]. split; [pose proof (val_range _ W'); lia|].
  rewrite E', E, Z.mod_add by (pose proof m_gt1; lia). f_equal. destruct (drops_carry a); ring.
Qed.

Lemma square_is_mul a x : rep m a x -> drops_carry a = false -> fsquare P a = fmul P a a.
Proof.
  intros Ra D. destruct (square_mod a x Ra) as (W & L & E). rewrite D in E.
  destruct (mul_mod a a (rep_wf _ _ Ra) (rep_wf _ _ Ra) (wide_bound a x Ra)) as (W' & L' & E').
  rewrite Z.sub_0_r, <- E' in E. apply cancel_B4 in E. rewrite !Z.mod_small in E by assumption.
  apply val_inj; assumption.
Qed.

(** On a dropped carry the result is off by exactly [2 * 2^128] in Montgomery form. *)
Lemma square_bad a x : rep m a x -> drops_carry a = true ->
  (val (fsquare P a) + 2 * B ^ 2) mod m = val (fmul P a a) mod m.
Proof.
  intros Ra D. destruct (square_mod a x Ra) as (W & L & E). rewrite D in E.
  destruct (mul_mod a a (rep_wf _ _ Ra) (rep_wf _ _ Ra) (wide_bound a x Ra)) as (W' & L' & E').
  apply cancel_B4. rewrite E', Z.mul_add_distr_r, <- Z.add_mod_idemp_l, E by (pose proof m_gt1; lia).
  rewrite Z.add_mod_idemp_l by (pose proof m_gt1; lia). f_equal. ring.
Qed.

End Rep.
