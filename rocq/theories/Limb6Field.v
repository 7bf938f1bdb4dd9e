(** Residues in six limbs: Montgomery form, conversions, powers, inverses, digits. *)
From Coq Require Import ZArith List Bool Lia Znumtheory Zdiv Zpow_facts.
From Verif Require Import LimbModel LimbProofs MontProofs FieldModel FieldSpec FieldProofs DigitProofs Primes PowProofs Limb6Model Limb6Spec Limb6Proofs Limb6Square.
Import ListNotations.
Local Open Scope Z_scope.

Global Opaque mont6 mul_wide6 square_wide6 sub_wide6 add_masked6 add6 neg6.

Lemma B6 : B ^ 6 = 2 ^ 384. Proof. rewrite Bval. reflexivity. Qed.
Lemma limb_value6_val a : limb_value6 a = val6 a.
Proof.
  unfold limb_value6, val6. rewrite Bval. change (2 ^ 320) with (18446744073709551616 ^ 5). change (2 ^ 256) with (18446744073709551616 ^ 4).
  change (2 ^ 192) with (18446744073709551616 ^ 3). change (2 ^ 128) with (18446744073709551616 ^ 2). change (2 ^ 64) with 18446744073709551616. reflexivity.
Qed.
Lemma limbs_ok6_wf a : limbs_ok6 a <-> wf6 a.
Proof. unfold limbs_ok6, limb_ok, wf6, word. rewrite Bval. change (2 ^ 64) with 18446744073709551616. tauto. Qed.
Lemma limbs_ok12_wf a : limbs_ok12 a <-> wf12 a.
Proof. unfold limbs_ok12, limbs_ok6, limb_ok, wf12, word. p6. rewrite Bval. change (2 ^ 64) with 18446744073709551616. tauto. Qed.
Lemma val12_split a : val6 (M6 (t0 a) (t1 a) (t2 a) (t3 a) (t4 a) (t5 a)) + B ^ 6 * val6 (M6 (t6 a) (t7 a) (t8 a) (t9 a) (t10 a) (t11 a)) = val12 a.
Proof. unfold val6, val12. p6. ring. Qed.
Lemma wf12_halves a : wf12 a -> wf6 (M6 (t0 a) (t1 a) (t2 a) (t3 a) (t4 a) (t5 a)) /\ wf6 (M6 (t6 a) (t7 a) (t8 a) (t9 a) (t10 a) (t11 a)).
Proof. unfold wf12, wf6. p6. tauto. Qed.
Lemma limb_value12_val a : limb_value12 a = val12 a.
Proof. unfold limb_value12. rewrite !limb_value6_val, <- B6. apply val12_split. Qed.
Lemma modulus6_ok p inv : modulus6 p inv <-> mod_ok6 p inv.
Proof.
  unfold modulus6. rewrite limbs_ok6_wf, limb_value6_val, <- B6. replace (2 ^ 64) with B by (rewrite Bval; reflexivity).
  split; [intros (A & C & D & E); constructor; assumption|intros [A C D E]; auto].
Qed.

Definition rep6 (m : Z) (a : limb6) (c : Z) : Prop := wf6 a /\ 0 <= c < m /\ val6 a = (c * B ^ 6) mod m.
Lemma represents6_rep m a c : represents6 m a c <-> rep6 m a c.
Proof. unfold represents6, rep6. rewrite limb_value6_val, limbs_ok6_wf, B6. tauto. Qed.

Lemma eqb6_eq a b : eqb6 a b = true <-> a = b.
Proof.
  unfold eqb6. rewrite !andb_true_iff, !Z.eqb_eq. destruct a, b; p6. split.
  - intros (((((-> & ->) & ->) & ->) & ->) & ->). reflexivity.
  - intros E. injection E; auto 10.
Qed.
Lemma le_bits6_lev a : wf6 a -> lev 2 (le_bits6 a) = val6 a.
Proof.
  intros W. unfold le_bits6. rewrite (flat_map_lev 2 64).
  - unfold limbs6, val6, lev; cbn [fold_right].
    replace (2 ^ Z.of_nat 64) with B by (rewrite Bval; reflexivity). ring.
  - intros d Hd. apply word_bits. destruct W as (?&?&?&?&?&?). cbn in Hd. intuition (subst; assumption).
Qed.
Lemma le_bits6_length a : length (le_bits6 a) = 384%nat.
Proof. unfold le_bits6. rewrite (flat_map_length' 64); [reflexivity|]. intros d. reflexivity. Qed.
Lemma le_bits6_bit a d : In d (le_bits6 a) -> d = 0 \/ d = 1.
Proof.
  unfold le_bits6. intros H. apply in_flat_map in H as (x & _ & H). apply in_flat_map in H as (y & _ & H).
  rewrite byte_bits_digits in H. apply digits_range in H; lia.
Qed.
Lemma to_bits6_value a : wf6 a -> be_value 2 (to_bits6 a) = val6 a.
Proof. intros W. unfold to_bits6. rewrite be_value_rev. apply le_bits6_lev, W. Qed.
Lemma to_bits6_bit a d : In d (to_bits6 a) -> d = 0 \/ d = 1.
Proof. unfold to_bits6. intros H. apply in_rev in H. apply (le_bits6_bit a d H). Qed.

Section Rep6.
Variables (p : limb6) (inv m : Z).
Hypothesis OK : mod_ok6 p inv.
Hypothesis Hm : val6 p = m.
Let pw : wf6 p := mo6_wf _ _ OK.
Lemma gt1 : 1 < m. Proof. rewrite <- Hm. exact (mo6_one _ _ OK). Qed.
Lemma half6 : 2 * m < B ^ 6. Proof. rewrite <- Hm. exact (mo6_half _ _ OK). Qed.

Lemma rel_prime_B6 : rel_prime B m.
Proof.
  apply rel_prime_sym. pose proof (mo6_inv _ _ OK) as E. apply Z.mod_divide in E; [|pose proof Bpos; lia]. destruct E as [k E].
  rewrite <- Hm. apply bezout_rel_prime.
  apply Bezout_intro with (u := - inv) (v := k + (u1 p + B * u2 p + B ^ 2 * u3 p + B ^ 3 * u4 p + B ^ 4 * u5 p) * inv).
  unfold val6. transitivity (k * B - u0 p * inv); [ring|]. lia.
Qed.
Lemma rel_prime_Bn n : 0 <= n -> rel_prime (B ^ n) m.
Proof. intros H. apply rel_prime_sym, rel_prime_Zpower_r; [exact H|]. apply rel_prime_sym, rel_prime_B6. Qed.
Lemma cancel_B6 x y : (x * B ^ 6) mod m = (y * B ^ 6) mod m -> x mod m = y mod m.
Proof.
  intros E. apply (cancel_mod m (B ^ 6)); [apply rel_prime_Bn; lia|pose proof gt1; lia|]. rewrite !(Z.mul_comm (B ^ 6)). exact E.
Qed.

Lemma mul6_mod a b : wf6 a -> wf6 b -> val6 a * val6 b < m * B ^ 6 ->
  wf6 (mul6 a b p inv) /\ 0 <= val6 (mul6 a b p inv) < m /\ (val6 (mul6 a b p inv) * B ^ 6) mod m = (val6 a * val6 b) mod m.
Proof.
  intros Ha Hb Hlt. rewrite <- Hm in Hlt. destruct (mul6_spec a b p inv OK Ha Hb Hlt) as (W & L & M & E). rewrite Hm in *.
  split; [exact W|]. split; [pose proof (val6_range _ W); lia|]. rewrite E. apply Z.mod_add. pose proof gt1; lia.
Qed.
Lemma rep6_lt a c : rep6 m a c -> 0 <= val6 a < m.
Proof. intros (_ & _ & ->). apply Z.mod_pos_bound. pose proof gt1; lia. Qed.
Lemma rep6_intro a c : wf6 a -> 0 <= val6 a < m -> val6 a mod m = (c * B ^ 6) mod m -> rep6 m a (c mod m).
Proof.
  intros W L E. pose proof gt1. split; [exact W|]. split; [apply Z.mod_pos_bound; lia|].
  rewrite Z.mul_mod_idemp_l by lia. rewrite <- E. symmetry. apply Z.mod_small. exact L.
Qed.
Lemma rep6_fun a c d : rep6 m a c -> rep6 m a d -> c = d.
Proof. intros (_ & Hc & Ec) (_ & Hd & Ed). rewrite Ec in Ed. apply cancel_B6 in Ed. rewrite !Z.mod_small in Ed; assumption. Qed.
Lemma rep6_inj a b c : rep6 m a c -> rep6 m b c -> a = b.
Proof. intros (Wa & _ & Ea) (Wb & _ & Eb). apply val6_inj; congruence. Qed.
Lemma rep6_exists a : wf6 a -> val6 a < m -> exists c, rep6 m a c.
Proof.
  intros W L. pose proof gt1 as G. destruct (rel_prime_bezout _ _ (rel_prime_Bn 6 ltac:(lia))) as [u v E].
  exists ((val6 a * u) mod m). apply rep6_intro; [exact W|pose proof (val6_range a W); lia|].
  replace (val6 a * u * B ^ 6) with (val6 a + (- val6 a * v) * m) by (replace (val6 a * u * B ^ 6) with (val6 a * (u * B ^ 6 + v * m) - val6 a * v * m) by ring; rewrite E; ring).
  symmetry. apply Z.mod_add. lia.
Qed.
Lemma rep6_of c : 0 <= c < m -> exists a, rep6 m a c.
Proof.
  intros H. pose proof gt1 as G. pose proof half6 as HF. pose proof (Z.mod_pos_bound (c * B ^ 6) m ltac:(lia)) as R. set (v := (c * B ^ 6) mod m) in *.
  pose (d := fun i => (v / B ^ i) mod B). exists (M6 (d 0) (d 1) (d 2) (d 3) (d 4) (d 5)).
  assert (W : forall i, word (d i)) by (intros i; apply Z.mod_pos_bound, Bpos).
  split; [unfold wf6; p6; auto 10|]. split; [exact H|]. fold v. unfold val6; p6.
  assert (D : forall i, 0 <= i -> v / B ^ i = d i + B * (v / B ^ (i + 1))).
  { intros i Hi. unfold d. rewrite Z.pow_add_r by lia. change (B ^ 1) with (B ^ Z.succ 0). rewrite Z.pow_succ_r, Z.pow_0_r, Z.mul_1_r by lia.
    rewrite <- Z.div_div by (try apply Z.pow_nonzero; pose proof Bpos; lia). pose proof (Z.div_mod (v / B ^ i) B ltac:(pose proof Bpos; lia)). lia. }
  assert (T : v / B ^ (5 + 1) = 0) by (apply Z.div_small; change (5 + 1) with 6; lia).
  pose proof (D 0 ltac:(lia)) as D0. rewrite Z.pow_0_r, Z.div_1_r in D0. rewrite D0.
  rewrite (D (0 + 1) ltac:(lia)), (D (0 + 1 + 1) ltac:(lia)), (D (0 + 1 + 1 + 1) ltac:(lia)), (D (0 + 1 + 1 + 1 + 1) ltac:(lia)), (D (0 + 1 + 1 + 1 + 1 + 1) ltac:(lia)).
  change (0 + 1 + 1 + 1 + 1 + 1 + 1) with (5 + 1). rewrite T. change (0 + 1 + 1 + 1 + 1 + 1) with 5. change (0 + 1 + 1 + 1 + 1) with 4. change (0 + 1 + 1 + 1) with 3. change (0 + 1 + 1) with 2. change (0 + 1) with 1. ring.
Qed.
Lemma rep6_zero : rep6 m zero6 0.
Proof.
  split; [unfold wf6, zero6; p6; auto 10 using word0|]. pose proof gt1. split; [lia|]. rewrite Z.mul_0_l, Z.mod_0_l by lia.
  unfold val6; cbn. ring.
Qed.

Ltac modeq := apply eqm_div; [pose proof gt1; lia|].
Lemma rep6_add a b x y : rep6 m a x -> rep6 m b y -> rep6 m (add6 a b p) ((x + y) mod m).
Proof.
  intros Ra Rb. pose proof (rep6_lt _ _ Ra) as La. pose proof (rep6_lt _ _ Rb) as Lb.
  destruct Ra as (Wa & Hx & Ea), Rb as (Wb & Hy & Eb). pose proof half6. pose proof gt1.
  destruct (add6_spec a b p Wa Wb pw ltac:(lia)) as [W E]. rewrite Hm in E.
  apply rep6_intro; [exact W| |].
  - rewrite E. destruct (Z.ltb_spec (val6 a + val6 b) m); lia.
  - transitivity ((val6 a + val6 b) mod m).
    + rewrite E. destruct (Z.ltb_spec (val6 a + val6 b) m); [reflexivity|]. modeq. exists (-1). ring.
    + rewrite Ea, Eb, <- Z.add_mod by lia. f_equal. ring.
Qed.
Lemma rep6_sub a b x y : rep6 m a x -> rep6 m b y -> rep6 m (sub6 a b p) ((x - y) mod m).
Proof.
  intros Ra Rb. pose proof (rep6_lt _ _ Ra) as La. pose proof (rep6_lt _ _ Rb) as Lb.
  destruct Ra as (Wa & Hx & Ea), Rb as (Wb & Hy & Eb). pose proof gt1.
  destruct (sub6_spec a b p Wa Wb pw) as [W E]; [rewrite Hm; lia|]. rewrite Hm in E.
  apply rep6_intro; [exact W| |].
  - rewrite E. destruct (Z.ltb_spec (val6 a) (val6 b)); lia.
  - transitivity ((val6 a - val6 b) mod m).
    + rewrite E. destruct (Z.ltb_spec (val6 a) (val6 b)); [|reflexivity]. modeq. exists 1. ring.
    + rewrite Ea, Eb, <- Zminus_mod. f_equal. ring.
Qed.
Lemma rep6_neg a x : rep6 m a x -> rep6 m (neg6 a p) ((- x) mod m).
Proof.
  intros Ra. pose proof (rep6_lt _ _ Ra) as La. destruct Ra as (Wa & Hx & Ea). pose proof gt1.
  destruct (neg6_spec a p Wa pw) as [W E]; [rewrite Hm; lia|]. rewrite Hm in E.
  apply rep6_intro; [exact W| |].
  - rewrite E. destruct (Z.eqb_spec (val6 a) 0); lia.
  - transitivity ((- val6 a) mod m).
    + rewrite E. destruct (Z.eqb_spec (val6 a) 0) as [->|]; [reflexivity|]. modeq. exists 1. ring.
    + replace (- x * B ^ 6) with (0 - x * B ^ 6) by ring. rewrite Zminus_mod. rewrite <- Ea. replace (- val6 a) with (0 - val6 a) by ring.
      rewrite Zminus_mod. rewrite (Z.mod_small (val6 a)) by lia. reflexivity.
Qed.
Lemma rep6_double a x : rep6 m a x -> rep6 m (double6 a p) ((2 * x) mod m).
Proof.
  intros Ra. pose proof (rep6_lt _ _ Ra) as La. destruct Ra as (Wa & Hx & Ea). pose proof gt1. pose proof half6.
  destruct (double6_spec a p Wa pw ltac:(lia)) as [W E]. rewrite Hm in E.
  apply rep6_intro; [exact W| |].
  - rewrite E. destruct (Z.ltb_spec (2 * val6 a) m); lia.
  - transitivity ((2 * val6 a) mod m).
    + rewrite E. destruct (Z.ltb_spec (2 * val6 a) m); [reflexivity|]. modeq. exists (-1). ring.
    + rewrite Ea, Z.mul_mod_idemp_r by lia. f_equal. ring.
Qed.
Lemma rep6_mul a b x y : rep6 m a x -> rep6 m b y -> rep6 m (mul6 a b p inv) ((x * y) mod m).
Proof.
  intros Ra Rb. pose proof (rep6_lt _ _ Ra) as La. pose proof (rep6_lt _ _ Rb) as Lb.
  destruct Ra as (Wa & Hx & Ea), Rb as (Wb & Hy & Eb). pose proof half6. pose proof gt1.
  destruct (mul6_mod a b Wa Wb ltac:(nia)) as (W & L & E).
  apply rep6_intro; [exact W|exact L|]. apply cancel_B6. rewrite E, Ea, Eb, <- Z.mul_mod by lia. f_equal. ring.
Qed.

(** Squares. *)
Definition lost6 (a : limb6) : Z := (if drops_high a then 2 * B ^ 4 else 0) + (if drops_low a then 2 * B ^ 2 else 0).
Lemma square6_mod a x : rep6 m a x -> wf6 (square6 a p inv) /\ 0 <= val6 (square6 a p inv) < m /\
  (val6 (square6 a p inv) + lost6 a) mod m = val6 (mul6 a a p inv) mod m.
Proof.
  intros Ra. pose proof (rep6_lt _ _ Ra) as La. destruct Ra as (Wa & _ & _). pose proof half6 as HF. pose proof gt1 as G.
  assert (Hb : val6 a * val6 a < m * B ^ 6) by nia.
  destruct (square_wide6_spec a Wa) as (W12 & E). set (L := lost6 a).
  assert (EL : val12 (square_wide6 a) = val6 a * val6 a - L * B ^ 6).
  { rewrite E. unfold L, lost6. destruct (drops_high a), (drops_low a); ring. }
  assert (L0 : 0 <= L). { unfold L, lost6. pose proof Bpos. assert (0 < B ^ 4) by (apply Z.pow_pos_nonneg; lia). assert (0 < B ^ 2) by (apply Z.pow_pos_nonneg; lia). destruct (drops_high a), (drops_low a); lia. }
  destruct (mont6_spec (square_wide6 a) p inv OK W12) as (W' & L' & M & E').
  { rewrite Hm, EL. assert (0 < B ^ 6) by lia. nia. }
  rewrite Hm in *. fold (square6 a p inv) in *. split; [exact W'|]. split; [pose proof (val6_range _ W'); lia|].
  destruct (mul6_mod a a Wa Wa Hb) as (W2 & L2 & E2). apply cancel_B6. rewrite E2, Z.mul_add_distr_r, E', EL.
  replace (val6 a * val6 a - L * B ^ 6 + M * m + L * B ^ 6) with (val6 a * val6 a + M * m) by ring. apply Z.mod_add. lia.
Qed.
Lemma square6_exact a x : rep6 m a x -> drops_high a = false -> drops_low a = false -> square6 a p inv = mul6 a a p inv.
Proof.
  intros Ra D1 D2. destruct (square6_mod a x Ra) as (W & L & E). unfold lost6 in E. rewrite D1, D2, Z.add_0_r in E.
  pose proof (rep6_lt _ _ Ra) as La. pose proof half6. destruct (mul6_mod a a (proj1 Ra) (proj1 Ra) ltac:(nia)) as (W2 & L2 & _).
  rewrite !Z.mod_small in E by assumption. apply val6_inj; assumption.
Qed.
Lemma rep6_square a x : rep6 m a x -> drops_high a = false -> drops_low a = false -> rep6 m (square6 a p inv) ((x * x) mod m).
Proof. intros R D1 D2. rewrite (square6_exact a x R D1 D2). apply rep6_mul; assumption. Qed.
Lemma divides_2Bn n : 0 <= n -> ~ (m | 2 * B ^ n).
Proof.
  intros Hn D. pose proof gt1 as G. assert (R2 : rel_prime m (2 * B ^ n)).
  { apply rel_prime_mult; [|apply rel_prime_sym, rel_prime_Bn; exact Hn].
    pose proof (rel_prime_sym _ _ rel_prime_B6) as R. replace B with (2 * 2 ^ 63) in R by (rewrite Bval; reflexivity).
    apply rel_prime_sym in R. apply (rel_prime_div _ _ 2) in R; [apply rel_prime_sym; exact R|]. exists (2 ^ 63). ring. }
  destruct R2 as [_ _ H]. specialize (H m (Z.divide_refl m) D). apply Z.divide_1_r_nonneg in H; lia.
Qed.
Lemma square6_iff a x : B ^ 2 + 1 < m -> rep6 m a x -> (square6 a p inv = mul6 a a p inv <-> drops_high a = false /\ drops_low a = false).
Proof.
  intros Hbig Ra. split; [|intros [D1 D2]; apply (square6_exact a x); assumption].
  intros E. destruct (square6_mod a x Ra) as (W & L & H). rewrite <- E in H. pose proof gt1 as G.
  assert (D : (m | lost6 a)).
  { apply eqm_div in H; [|lia]. destruct H as [k H]. exists k. lia. }
  clear H. unfold lost6 in D. destruct (drops_high a), (drops_low a); auto; exfalso.
  - replace (2 * B ^ 4 + 2 * B ^ 2) with (2 * B ^ 2 * (B ^ 2 + 1)) in D by ring.
    apply Gauss in D.
    + apply Z.divide_pos_le in D; [lia|]. assert (0 < B ^ 2) by (apply Z.pow_pos_nonneg; [exact Bpos|lia]). lia.
    + apply rel_prime_mult; [|apply rel_prime_sym, rel_prime_Bn; lia].
      pose proof (rel_prime_B6) as R. replace B with (2 * 2 ^ 63) in R by (rewrite Bval; reflexivity).
      apply (rel_prime_div _ _ 2) in R; [apply rel_prime_sym; exact R|]. exists (2 ^ 63). ring.
  - rewrite Z.add_0_r in D. exact (divides_2Bn 4 ltac:(lia) D).
  - exact (divides_2Bn 2 ltac:(lia) D).
Qed.

(** Conversions. *)
Variables r2 r3 one : limb6.
Hypothesis H2 : wf6 r2 /\ val6 r2 = B ^ 12 mod m.
Hypothesis H3 : wf6 r3 /\ val6 r3 = B ^ 18 mod m.
Lemma rep6_to_mont v : wf6 v -> rep6 m (to_mont_form6 v r2 p inv) (val6 v mod m).
Proof.
  intros W. destruct H2 as [W2 E2]. pose proof gt1. pose proof (val6_range v W). pose proof (Z.mod_pos_bound (B ^ 12) m ltac:(lia)).
  destruct (mul6_mod v r2 W W2 ltac:(rewrite E2; nia)) as (W' & L & E).
  apply rep6_intro; [exact W'|exact L|]. apply cancel_B6. unfold to_mont_form6. rewrite E, E2, Z.mul_mod_idemp_r by lia. f_equal. ring.
Qed.
Lemma rep6_mul_R3 v : wf6 v -> rep6 m (mul6 v r3 p inv) ((val6 v * B ^ 6) mod m).
Proof.
  intros W. destruct H3 as [W3 E3]. pose proof gt1. pose proof (val6_range v W). pose proof (Z.mod_pos_bound (B ^ 18) m ltac:(lia)).
  destruct (mul6_mod v r3 W W3 ltac:(rewrite E3; nia)) as (W' & L & E).
  apply rep6_intro; [exact W'|exact L|]. apply cancel_B6. rewrite E, E3, Z.mul_mod_idemp_r by lia. f_equal. ring.
Qed.
Lemma rep6_from_u512 l : wf12 l -> rep6 m (from_u512_6 l r2 r3 p inv) (val12 l mod m).
Proof.
  intros W. pose proof gt1.
  assert (Wl : wf6 (M6 (t0 l) (t1 l) (t2 l) (t3 l) (t4 l) (t5 l))) by (apply wf12_halves; exact W).
  assert (Wh : wf6 (M6 (t6 l) (t7 l) (t8 l) (t9 l) (t10 l) (t11 l))) by (apply wf12_halves; exact W).
  pose proof (rep6_to_mont _ Wl) as R1. pose proof (rep6_mul_R3 _ Wh) as R2.
  pose proof (rep6_add _ _ _ _ R1 R2) as R. rewrite <- Z.add_mod in R by lia.
  replace (val12 l) with (val6 (M6 (t0 l) (t1 l) (t2 l) (t3 l) (t4 l) (t5 l)) + val6 (M6 (t6 l) (t7 l) (t8 l) (t9 l) (t10 l) (t11 l)) * B ^ 6).
  - exact R.
  - rewrite <- (val12_split l). ring.
Qed.
Lemma u64_limbs6 v : word v -> wf6 (M6 v 0 0 0 0 0) /\ val6 (M6 v 0 0 0 0 0) = v.
Proof. intros H. split; [unfold wf6; p6; auto 10 using word0|unfold val6; p6; ring]. Qed.

(** Powers. *)
Lemma ladder6 a x e : rep6 m a x -> carry_free6 m x e ->
  forall bits acc k, (forall d, In d bits -> d = 0 \/ d = 1) -> 0 <= k ->
  e = k * 2 ^ Z.of_nat (length bits) + be_value 2 bits ->
  rep6 m acc (x ^ k mod m) ->
  rep6 m (fold_left (fun acc bit => let acc := square6 acc p inv in if bit =? 1 then mul6 acc a p inv else acc) bits acc) (x ^ e mod m).
Proof.
  intros Ra CF. pose proof gt1 as G. induction bits as [|d bits IH]; intros acc k Hb Hk He Rc.
  - cbn [fold_left]. change (Z.of_nat (length (@nil Z))) with 0 in He. change (be_value 2 []) with 0 in He.
    rewrite Z.pow_0_r in He. replace e with k by lia. exact Rc.
  - cbn [fold_left]. cbv zeta. pose proof (Hb d (or_introl eq_refl)) as Hd.
    rewrite be_value_cons in He. pose proof (be_value_range bits ltac:(intros; apply Hb; right; assumption)) as Rg.
    set (n := Z.of_nat (length bits)) in *.
    assert (El : Z.of_nat (length (d :: bits)) = Z.succ n) by (cbn [length]; lia).
    rewrite El, Z.pow_succ_r in He by lia.
    apply (IH _ (2 * k + d)).
    + intros; apply Hb; right; assumption.
    + destruct Hd; lia.
    + rewrite He. fold n. ring.
    + destruct (CF (Z.succ n) acc) as [D1 D2]; [lia| |].
      { apply represents6_rep. replace (e / 2 ^ Z.succ n) with k; [exact Rc|]. rewrite Z.pow_succ_r by lia.
        apply (Z.div_unique_pos _ _ _ (d * 2 ^ n + be_value 2 bits)); [|lia].
        assert (0 < 2 ^ n) by (apply Z.pow_pos_nonneg; lia). destruct Hd as [->| ->]; lia. }
      pose proof (rep6_square acc _ Rc D1 D2) as Rs. rewrite <- Z.mul_mod in Rs by lia. rewrite <- Z.pow_add_r in Rs by lia.
      destruct Hd as [->| ->]; cbn [Z.eqb].
      * replace (2 * k + 0) with (k + k) by ring. exact Rs.
      * pose proof (rep6_mul _ _ _ _ Rs Ra) as R. rewrite Z.mul_mod_idemp_l in R by lia. change (Pos.eqb 1 1) with true. cbv iota.
        replace (2 * k + 1) with (Z.succ (k + k)) by ring. rewrite Z.pow_succ_r by lia. rewrite (Z.mul_comm x). exact R.
Qed.

Hypothesis H1 : rep6 m one 1.
Lemma pow6_spec a b x : rep6 m a x -> wf6 b -> carry_free6 m x (val6 b) -> rep6 m (pow6 a b one p inv) (x ^ val6 b mod m).
Proof.
  intros Ra Wb CF. pose proof gt1 as G. unfold pow6.
  assert (E0 : val6 zero6 = 0) by (unfold val6, zero6; p6; ring).
  destruct (eqb6 b zero6) eqn:Eb.
  { apply eqb6_eq in Eb. subst b. rewrite E0, Z.pow_0_r, Z.mod_1_l by lia. exact H1. }
  destruct (eqb6 a zero6) eqn:Ea.
  { apply eqb6_eq in Ea. subst a. pose proof (rep6_fun _ _ _ Ra rep6_zero). subst x.
    rewrite Z.pow_0_l; [rewrite Z.mod_0_l by lia; apply rep6_zero|].
    pose proof (val6_range b Wb). assert (val6 b <> 0); [|lia]. intros E.
    assert (b = zero6); [|subst b; discriminate].
    apply val6_inj; [exact Wb|unfold wf6, zero6; p6; auto 10 using word0|]. rewrite E. symmetry. exact E0. }
  apply (ladder6 a x (val6 b) Ra CF (to_bits6 b) one 0).
  - apply to_bits6_bit.
  - lia.
  - rewrite to_bits6_value by exact Wb. lia.
  - rewrite Z.pow_0_r, Z.mod_1_l by lia. exact H1.
Qed.
Lemma little_fermat6_spec : 2 <= m -> wf6 (little_fermat6 p) /\ val6 (little_fermat6 p) = m - 2.
Proof.
  intros M2. unfold little_fermat6. assert (Wz : wf6 zero6) by (unfold wf6, zero6; p6; auto 10 using word0).
  destruct (u64_limbs6 2) as [W2 E2]; [unfold word; rewrite Bval; lia|].
  assert (Ez : val6 zero6 = 0) by (unfold val6, zero6; p6; ring).
  destruct (sub6_spec zero6 (M6 2 0 0 0 0 0) p Wz W2 pw) as [W E]; [rewrite Ez, E2, Hm; lia|].
  rewrite Ez, E2, Hm in E. cbn [Z.ltb Z.compare] in E. split; [exact W|]. rewrite E. ring.
Qed.
Lemma invert6_spec a x : prime m -> rep6 m a x -> x <> 0 -> carry_free6 m x (m - 2) ->
  exists i y, invert6 a (little_fermat6 p) one p inv = Some i /\ rep6 m i y /\ (x * y) mod m = 1.
Proof.
  intros PR Ra Hx CF. pose proof gt1 as G. unfold invert6. destruct (eqb6 a zero6) eqn:E.
  { apply eqb6_eq in E. subst a. destruct Hx. apply (rep6_fun _ _ _ Ra rep6_zero). }
  destruct (little_fermat6_spec ltac:(lia)) as [W V].
  eexists; exists (x ^ (m - 2) mod m). split; [reflexivity|]. split.
  - rewrite <- V. apply pow6_spec; [exact Ra|exact W|]. rewrite V. exact CF.
  - rewrite Z.mul_mod_idemp_r by lia. destruct Ra as (_ & Rx & _). rewrite <- Z.pow_succ_r by lia. replace (Z.succ (m - 2)) with (m - 1) by lia.
    rewrite (fermat m x PR); [apply Z.mod_1_l; exact G|]. intros D. apply Z.divide_pos_le in D; lia.
Qed.
Lemma invert6_zero : invert6 zero6 (little_fermat6 p) one p inv = None.
Proof. reflexivity. Qed.
End Rep6.

Theorem to_nafs6_spec a : wf6 a -> exists ds, to_nafs6 a = Some ds /\
  be_value 2 (map naf_val (rev ds)) = val6 a /\ non_adjacent ds /\ (match rev ds with d :: _ => d <> NZero | [] => True end).
Proof.
  intros W. unfold to_nafs6.
  destruct (naf_digits_spec (le_bits6 a ++ [0; 0]) 0) as (ds & cout & E & L & Hco & V & NA & Hd).
  { intros d Hd. apply in_app_or in Hd as [Hd|Hd]; [apply (le_bits6_bit a), Hd|]. cbn in Hd. intuition. }
  { left. reflexivity. }
  rewrite E.
  rewrite lev_app, le_bits6_lev, le_bits6_length in V by exact W. rewrite app_length, le_bits6_length in V, L. cbn [length] in L, V.
  change (lev 2 [0; 0]) with 0 in V. rewrite Z.mul_0_r, !Z.add_0_r in V.
  destruct ds as [|d0 ds]; [discriminate|].
  assert (D0 : d0 = NZero) by (apply Hd; discriminate). subst d0.
  cbn [map] in V. rewrite lev_cons in V. cbn [naf_val] in V.
  assert (C0 : cout = 0).
  { destruct Hco as [-> _]. rewrite fold_left_app.
    assert (G : forall l c, (forall d, In d l -> d = 0 \/ d = 1) -> c = 0 \/ c = 1 \/ c = 2 ->
      let c' := fold_left (fun c b => (b * 3 + c) / 2) l c in c' = 0 \/ c' = 1 \/ c' = 2).
    { induction l as [|x l IH]; intros c Hl Hc; [exact Hc|]. cbn [fold_left]. apply IH.
      - intros; apply Hl; right; assumption.
      - destruct (Hl x (or_introl eq_refl)) as [->| ->], Hc as [->|[->| ->]]; cbn; auto. }
    destruct (G (le_bits6 a) 0 (le_bits6_bit a) (or_introl eq_refl)) as [->|[->| ->]]; reflexivity. }
  subst cout. assert (V2 : lev 2 (map naf_val ds) = val6 a) by lia.
  eexists. split; [reflexivity|]. cbn [rev]. rewrite skip_last_zero. cbn [naf_eqb].
  set (s := skip_while (naf_eqb NZero) (rev ds)).
  assert (Es : removelast (match s with [] => [] | n :: l => (n :: l) ++ [NZero] end) = s).
  { destruct s as [|x s']; [reflexivity|]. apply removelast_last. }
  rewrite Es, rev_involutive. split; [|split].
  - unfold s. rewrite skip_naf_value, map_rev, be_value_rev. exact V2.
  - apply non_adjacent_rev. apply non_adjacent_skip, non_adjacent_rev. eapply non_adjacent_tail, NA.
  - unfold s. clear. induction (rev ds) as [|x l IH]; [exact I|]. cbn [skip_while]. destruct x; cbn [naf_eqb]; try discriminate. exact IH.
Qed.
